# Formal model of pypsrp in Rocq — design

The library under study is pypsrp (`/repo/src/pypsrp`).  The model is a shallow
embedding in Gallina (Coq 8.16.1, standard library only): each Python function
is a total computable function over `list`, `N`, `Z`, `option` and records;
exceptions are values (`res A := Ok a | Err e`); loops are structural recursion
or explicit fuel whose exhaustion is a distinguished value that the theorem
statement rules out; external calls (network, ciphers, security contexts, host
implementations, remote server) are function arguments or oracles universally
quantified over.

## File layout (`rocq/theories`, logical prefix `Verif`)

Per domain `X`: `XModel.v` (definitions, each citing the lines of `/repo` it
models), `XSpec.v` (small independent specification: what the English claim
says, without the model's helpers), `XProofs.v` (lemmas), `XProps.v` (the
property theorems only, each closed by `exact`, followed by
`Print Assumptions`, with a concrete non-trivial case as `Example`).

## Trusted base

* Coq's kernel (with its `vm_compute` reduction machine).
* No axiom is declared in this development.  `Print Assumptions` of every
  property theorem is listed in the section "Assumptions per theorem" below.
* The faithfulness of the model to the Python text: the code was read, not run.
* External behaviour assumed where a theorem has it as an explicit hypothesis
  (cipher inverse, checksum difference, security context inverse, ...).

## Plan per property

| id | modelled | proof |
|----|----------|-------|
| C01 | `Fragment.pack/unpack` over byte lists, `struct` big-endian packing with its range errors | round trip; iff for the error branch |
| C02 | `Fragmenter.fragment`, `_byte_iterator`, `defragment` with its buffer dictionary | induction over the byte iterator; shape of the fragment list against an independent spec |
| C03 | `defragment` run over a list of receive calls | refinement to an abstract reassembler; interleaving as an inductive relation |
| C04 | `fragment`, `fragment_multiple` lengths, `_process_session_capability` | bound by induction; the part after session negotiation is refuted by a witness (no header allowance is subtracted) |
| C05 | `fragment_multiple` | concatenation of blocks = concatenation of packed fragments of each message; then C02/C03 |
| C06 | `defragment` on arbitrary words over the fragments of a message | invariant: buffered data is a prefix of the message |
| C07 | `Message.pack/unpack` header, `UUID.bytes_le` | round trip |
| C08 | fragment counter over histories of sends | strictly increasing list |
| C09 | both regular expressions, UTF-16-BE coding, byte-level unaligned search | `_partial` for strings without the misaligned pattern, `_refuted` with witness for the full claim |
| C10 | `_serialize_string`; how a peer reads a string is `PeerSpec.v` (code units, then characters; nothing of the model) | grammar of the output; reading back by induction over the string, `PeerProofs.v` |
| C11 | base64 | round trip, alphabet, length |
| C12 | PKCS7 + UTF-16-LE + base64 around an abstract cipher | round trip for every cipher inverse on blocks |
| C13 | serializer/deserializer on XML trees for values of the listed kinds (SerModel.v) | false as stated: `C13_roundtrip_iff` says exactly which values come back (no list or dictionary as member of a list, no empty byte string, no text excluded by C09), by induction on the value with the id and type tables threaded; three refutations with witnesses |
| C14 | RefId allocation and TN table (SerModel.v) | `C14_ids` for every value graph by invariants; `C14_types_partial` for graphs whose objects agree on all type names when they agree on the first; without that condition refuted (`C14_types_refuted`, the table is keyed by the first type name only); `C14_dangling`, `C14_lone_ref`: reading never turns a reference to an id that nothing introduced into a value |
| C15 | transport settings, `send` with auth/encryption state | invariant over traces |
| C16, C17 | `WinRMEncryption` byte-level MIME splitting | round trip under delimiter-freedom; acceptance implies lengths |
| C18 | retry loop against an oracle of outcomes | counts and delays |
| C19 | `invoke` | decision rule |
| C20, C22, C24, C25, C47 | pool/pipeline state machine with server messages as oracle | guards as decision rules, invariants over histories |
| C21 | `WinRS.open/close` | trace invariant |
| C23 | `_parse_responses`, `poll_invoke`, `end_invoke` | batching independence. `C23_returns`, `C23_ends`: waiting comes back when the server has said that the pipeline runs no more (`EndSpec.v`, `EndProofs.v`, `EndProofs2.v`), by induction over the answers, for reports and calls that the host has no answer to |
| C26 | `PSHost.run_method` with the method table | finite sweep lifted to all integers |
| C27 | `version_equal_or_newer` | equivalence with the numeric order |
| C28 | `get_pwsh_script` | equivalence with a declarative filter |
| C29, C30 | client side of copy/fetch and the two remote scripts | end-to-end theorem with abstract checksum |
| C31 | `WinRS.receive`, `Process`; the decoding of what `execute_cmd` returns in `CodeModel.v` | concatenation over histories; the text is the one whose code page 437 or UTF-8 bytes the server sent (`CodeSpec.v`, `CodeProofs.v`), decoded after the chunks are joined |
| C32, C33 | `HTTPNegotiateAuth` | decision rule; trace property |
| C34 | context variable | stack discipline |
| C35 | `_create_endpoint` | decision rule |
| C36 | `_calc_envelope_size` arithmetic | arithmetic |
| C37 | `Array` helpers | induction on rank |
| C38 | `Pipeline` statements | round trip |
| C39 | `exchange_keys`, blob layout | history invariant, codec round trip; the server-request part refuted (handler never called) |
| C40 | `begin_invoke` input loop | trace equality; generator yielding `None` refuted |
| C41 | `_invoke`, `open` | block concatenation; `open` refuted for large arguments |
| C42 | `_set_merge_to`, `merge_*` | decision table |
| C43 | `HostInfo` | implications |
| C44 | flag printing | bit-level |
| C45 | fault text and parsing | decision rules |
| C46 | `is_alive` | decision table |
| C48 | `_WSManSet` | list equality |
| C49 | decimal text of integers; which texts `int()` reads (`NumSpec.v`); tags for one character | round trip; exact description of the numerals read; several characters under a one-character tag are rejected |
| C50 | `_deserialize_obj` property lookup, the classes of `SerClasses.v`, `Message.unpack` for pipeline output | decision rule; refuted for enumerations (KeyError) and for incomplete objects inside others |
| C51 | the default host classes | induction over the calls; for single methods (HostSpec2.v) a case per identifier against tables of what is asked for, changed, left to the user or ignored |
| C52 | `_TransportHTTP` read timeout against OperationTimeout | arithmetic; refuted for a read timeout set by the user |
| C53 | the nine request methods of `WSMan` in `WsmanModel.v` | against the list of standard actions in `WsmanSpec.v` |
| C54 | session capability, sizes and reset on pools (PoolModel.v) | relation kept by every operation, log folded by PoolSpec2.v; reset from the lemma on calls by id |
| C55 | `_build_session`, the `_build_auth_` methods and `_get_auth_kwargs` in `SessModel.v` | each part of the session against `SessSpec.v`; that secrets are not used as equality of the sessions for all values of them |
| C56 | `HTTPNegotiateAuth.__init__`, `handle_401` up to `spnego.client`, `_get_cbt_data`, `_get_certificate_hash` in `SessModel.v` | from the arguments of `WSMan` to those of `spnego.client`; the binding against RFC 5929 in `SessSpec.v`; the documented default of the service is refuted |
| C57 | `execute_ps`, `RunspacePool.__enter__/__exit__` and the command builder over the pool model, in `ClientModel.v` | the commands against `says_script` of `ClientSpec.v` for every message sent, whatever the outcome; output by the theorem behind C23 (hence `_partial`); closing from the theorems behind C21; a shell whose pool fails to open is left behind: refuted |
| C58 | `sanitise_clixml` in `ClientModel.v`, the XML parser an oracle; with the reader of `XtModel.v` in `ClixModel.v` | exact condition under which a document written as PowerShell writes it gives its error strings (that of C13 and that no escape arises across two strings); the joining is refuted; on characters by C68, from the answers of a process by C31 (`ClixProofs.v`, `ClixProps.v`), a second document refuted |
| C59 | the serializer of `SerModel.v` with the classes of `SerClasses.v`; spec in `ClsSpec.v` | `conforms` says which values fit a metadata, `copy` when one graph is a copy of another; induction on `conforms` with a per-value invariant on the type-name tables of both sides (`ClsProofs*.v`); all library classes, those of the messages included, but three meet the description condition (computed); the three are `ErrorRecord` and its message (two attributes share a name) and `RunspacePoolStateMessage` (its error record has no name); refuted for `ErrorRecordMessage`, for dictionaries declared with plain string keys and for instances in untyped lists. Dictionaries declared with key and value metadata are covered. Not covered: queues, stacks, `ObjDynamic` and `DT` attributes |
| C60 | `ElementTree.tostring` (escapes, namespace prefixes, character references) and `fromstring` (expat: a character machine, then namespace resolution) in `XtModel.v`; the registry of prefixes of Python with those of `wsman.py` | the reader run over what the writer gave, by induction on the tree; then resolution of the prefixes; then UTF-8 from C10. Spec in `XtSpec.v`. `_partial`: carriage returns in texts are read as line feeds (`C60_line_ends` says what arrives then); refuted for U+FFFE, surrogates and control characters in names of properties, which the serializer lets through |
| C61 | the serializer of `SerModel.v` and the writer and reader of `XtModel.v` put together: `WfModel.v`; spec in `WfSpec.v` | every element the serializer makes has only XML characters and no carriage return in its texts, by induction on the fuel with a predicate on values and on metadata (`WfProofs*.v`); then C60 gives the tree and C59 the copy. `_partial` as C59 is; refuted for U+FFFE and U+FFFF in strings and for controls in unescaped texts: the reader then returns the markup as the value |
| C62 | `Message.pack`/`unpack` of `MsgModel.v` with the serializer and XML of `WfModel.v` as its codec instead of an oracle: `WireModel.v`; the table of message classes, against the numbers of [MS-PSRP] in `WireSpec.v` | an instance is written alike with and without its class as metadata; then C61 for the object, C07's header lemmas and C02's fragments (`WireProofs.v`). `_partial` as C61 is; the end of input and a ConnectRunspacePool without limits, which a client only sends, are refuted: their text is no object |
| C63 | `begin_invoke` and `open` up to the message object (`StartModel.v`, with the commands of `ObjModel.v`), the classes that the library only writes (`SendClasses.v`), then `WireModel.v`; what the other end has to read is `StartSpec.v` | the instances made are described one by one and shown to fit their metadata; C62's general lemma carries them; what a copy of them says is read off `copy` (`StartProofs*.v`). The reader has the same metadata and plain attributes: the library itself cannot read these messages, the properties of `HostInfo` have no setters. `_partial`: hosts with a raw user interface are missing, and apartment state 0 is refuted (taken for not given) |
| C64 | the bytes of a request: the envelope of `WsmanModel.v` with the writer of `XtModel.v` (`EnvModel.v`); the shell of `ShellModel.v`; what a server reads is `EnvSpec.v` | every envelope made of XML characters can be written, so C60's lemma gives a tree that `arrives`; the only element with a tag, its text and attributes are then found in it (`EnvProofs.v`); that a shell stays writable along any uses, and execute_cmd is a sequence of uses, by induction (`EnvProofs2.v`). `_partial`: carriage returns arrive as line feeds and other control characters make an unreadable request (both refuted), as is the id given to a `Process` and the idle time of a shell opened again |
| C65 | the pool of `PoolModel.v` over the requests of `EnvModel.v`; what a server reads is `JobSpec.v` and `EnvSpec.v`; elements with a default namespace (creationXml, connectXml) are read as `HomeSpec.v` says | the writer's text of an element with an attribute xmlns is the one of the tree with the qualified name (`HomeProofs*.v`); an invariant kept by every operation says that ids and settings stay writable and every request is read as it is (`JobProofs.v`); all bytes written are bytes (`BytesProofs.v`), so base64 in the requests gives the blocks of C41 back (`JobProofs2.v`). `_partial`: texts that XML does not allow; the content of the messages is C61 to C63 |
| C66 | the constructors of all messages a client sends as graphs of instances (`TellModel.v`), and the pool of `PoolModel.v` with these, the serializer, the XML text and the message format in it (`LibModel.v`); what is understood is `TellSpec.v` | each message is shown to fit its metadata (C61, C63) and its copy to say what the message says (`TellProofs2.v`); copies are made of what a value reaches and of nothing else (`TellProofs.v`); then C65 (`TellProofs3.v`). `C66_nothing` lists the single inputs for which a pipeline is created as one without input, and `C66_declared_refuted` that they are sent all the same (`TellProps2.v`). `_partial`: hosts with a raw user interface, values and texts that C59 and C60 exclude, several blocks on opening (C41) |
| C67 | the reading half of `SerModel.v` (and `deserialize_text` of `WfModel.v`); what a server has and how it writes it, what metadata and type names take it for, and what holds it are `RdSpec.v`, apart from the serializer | induction over the documents that can be read (`RdProofs.v`-`RdProofs3.v`), with what is known of ids and type names threaded through; `RdProofs4.v`, `RdProofs5.v`: type names, classes of the library. `_partial`: enumerables, decorated primitives, nested lists in `Object[]`, objects without type names in untyped lists, properties of lists, properties out of the order of the class and generic lists of types that have no structure, each refuted; raw scalars (`DT`, `TS`, `D`, `Version`) are held as their text; readability is asked of the document as a whole |
| C68 | the reader of `XtModel.v`, extended to declarations, comments, instructions and CDATA sections, and of bytes (`XgModel.v`); what a text says is `XgSpec.v`: the productions of XML 1.0 and Namespaces 1.0 as relations | each production is run through the character machine from any state it can be met in (`XgProofs.v`), then namespaces and line ends (`XgProofs2.v`), then bytes (`XgProofs3.v`); put together with C67 and C19. The other way (`XgProofs4.v`-`XgProofs7.v`): what each state of the machine says of the characters read so far is an invariant of its steps, so a text is read exactly when it says something. Missing: document types, names outside ASCII, encodings other than UTF-8 |
| C69 | `library_env` (`LibModel.v`), which gives the pool model the library's own messages, serializer and parser; the bytes of a message, what it is taken for and what holds it are `HearSpec.v` | each message by C68 and C67 (`HearProofs.v`), the attributes of state messages (`HearProofs2.v`), the streams (`HearProofs3.v`), put together with C23 (`HearProofs4.v`); `C69_told` is the same for the messages for a pool and for calls to the host (`HearSpec2.v`, `HearProofs5.v`): bounds, state, versions, session key, answers to calls, and the number, method and parameters of a call; `C69_pool` is what the pool has then. `_partial`: the limits of C67 and C23; that waiting comes back is a hypothesis in `C69_waited_partial` and proved for reports only in `C69_ends_partial` (`EndProofs3.v`) |
| C70 | no new code; the form of every message the client sends is the table `forms` of `FormSpec.v` (type names, properties, names and types as in [MS-PSRP]) with `opening`/`form_of` (`FormSpec2.v`), and of every message and object a server sends the table `heard` of `FormSpec3.v`, both apart from the class tables of the library | the class tables hold against the forms by computation (`FormProofs3.v`), serializing an object whose class fits a form tells it in that form (`FormProofs2.v`, induction over fuel), each message the model makes fits (`FormProofs4.v`, `FormProofs5.v`); what is read holds by the rows of `heard` from C67 (`FormProofs6.v`). `_partial`: values of any type are told by name only (C59, C61 say the rest), references forward and ill-typed properties on the received side; refuted: a shared generic object is sent without its name, two enumeration names are misspelled, the failure of a pool is taken from a property of any name |
| C71 | `Array` with its properties and the loops that flatten and build (`ArrModel.v`; a loop that does not end is `None` for every number of turns); rectangular arrays, indexing and the place of an element are `ArrSpec.v` | building by induction over the lengths from the last, flattening by induction from the first, arrays are determined by their elements (`ArrProofs.v`); through the serializer and the XML text by C61 (`ArrProofs2.v`). `_partial`: elements as in C61; refuted: arrays without elements, received arrays sent on unseen, lengths that do not go with the elements (one of them never ends), ragged rows |
| C72 | `HostInfo` and `_HostDefaultData` (`ObjModel.v`, `StartModel.v`, `SendClasses.v`) in the messages of `TellModel.v`; what a server reads is `ScreenSpec.v`: a reader of trees by tags and names, with strings read by `PeerSpec.v`, and the list of MS-PSRP 2.2.3.14 | the serializer is run through the properties before the host, which remember no object, and through the ten entries, whose generic objects are all new (`ScreenProofs.v`); the message as in C70 (`ScreenProofs2.v`). Colours, positions and sizes are integers |
| C73 | no new code: the waiting loops of `PoolModel.v`; what the server answers in turn is `EndSpec.v`, what it says meanwhile `WaitSpec.v` | an invariant over the messages heard, carried through the batches by induction over the answers (`WaitProofs.v`); the world in which waiting begins is that of the call with no fuel. `_partial`: answers that are late are excluded, as the claim is refuted for them (`C73_slow_opening_refuted`, `C73_slow_limit_refuted`: only `poll_invoke` catches the operation timeout); `WaitProofs2.v` does the same for the wait of exchange_keys, with the clock as a hypothesis and the cipher changing in the last batch (`C73_keys_partial`); a failed exchange is never tried again (`C73_keys_held`, `C73_slow_key_refuted`); the single receive of connect is not covered |
| C74 | the constructors of the classes of `complex_objects.py` in `NewModel.v`: for each attribute the keyword, default or constant it is from; spec in `NewSpec.v` (what was given for a name, the values of each enumeration) | a check over the table of constructors and the metadata of `SerClasses.v`, composed with C59 for sending and reading (`NewProofs.v`); partial: nine attributes do not have what was given (listed in `NewSpec.lost`), among them one of CultureInfo and three of ErrorRecord that are never set, so that no object of these classes made by its constructor can be sent (`C74_unsent`, for all arguments); refuted with a host answering GetCurrentCulture. An enumeration that was given nothing is written under the name of zero and without number, for every class (`C74_unset`, `C74_unset_method`, `NewProofs2.v`) |
| C75 | the texts of the errors (`WsmanModel.v`, `ErrModel.v`) and the arguments that each operation gives its state error; spec in `ErrSpec.v` (the states in the order of their numbers, what a fault may tell, when an operation is refused) | splitting the texts at quotes and commas; composed with the guards of C20 and C22; partial: details with commas in them can make two faults read the same, and a state that the protocol does not have makes the text itself a KeyError (both refuted) |
| C76 | queues and stacks in `SerModel.v`; what sending leaves in the caller's object in `QueModel.v`; which values go together is `QueSpec.v` | each value as in C59, with the metadata that all of them share threaded through; partial: values of one sort only; values of different sorts come back changed or not at all, a stack is turned over, the caller's queue is emptied, a tagged list cannot be sent (each refuted; `C76_taken`: emptied in all cases) |
| C77 | the listing of `PoolModel.v` (section Enumerate); the requests and answers of a server that has these shells and commands are `ListSpec.v` | induction over the shells and commands as they are in the answers, whatever else these tell (`ListProofs.v`); all requests of every run are determined (`C77_requests`); partial: every shell is taken for a pool of the default configuration (`C77_other_shells_refuted`) and a part is taken for all (`C77_part_refuted`) |
| C78 | no new code: all calls of `PoolModel.v`; which pipeline a call is about is `ApartSpec.v`, which ones a request names `ApartSpec2.v` | a relation between worlds (the pipeline is as it was) through every call and every message, with the invariant of C47 that the registry leads to pipelines of that id (`ApartProofs.v`); another one for the requests (`ApartProofs2.v` to `ApartProofs5.v`; `C78_asked`, `C78_pool_asked`, `C78_metadata_asked`); partial: the pipeline that a message names is not looked at (`C78_pipeline_id_refuted`), and disconnecting marks pipelines that the server refused or that have completed (`C78_refused_start_refuted`, `C78_completed_refuted`) |
| C79 | `WinRS.open` with an `OptionSet` of the caller, which it changes (`OptsModel.v`, over `shell_open` of `ShellModel.v`); the options that settings ask for are `OptsSpec.v` | induction over the shells opened with one set (`OptsProofs.v`). `_partial` and two refutations: the settings of one shell stay in the set and are asked for with the next, and twice when an open is retried |
| C80 | `clear_streams` and `clear_commands` (`AgainModel.v`) over `PoolModel.v`; what a pipeline's results are is `AgainSpec.v` | a relation between worlds (the results are as they were) through `begin_invoke` (`AgainProofs.v`), composed with C69 from empty streams (`AgainProofs2.v`). `_partial`: the limits of C69, and had_errors is never reset (`C80_had_errors_refuted`; by no call at all: `C80_never_reset`, `AgainProofs3.v`); without clearing, `end_invoke` returns the output of the earlier runs too (`C80_not_cleared_refuted`) |

## What is modelled

| Source | Model | Not modelled / simplified |
|---|---|---|
| `powershell.py` `Fragmenter`, `Fragment` | `FragModel.v` | — |
| `messages.py` `Message.pack/unpack`, `Destination`, `MessageType` | `MsgModel.v`; with the serializer `WireModel.v` | bodies of the message classes (serialised data is an argument in `MsgModel.v`, a graph of instances in `WireModel.v`) |
| `serializer.py` strings, secure strings, bytes, base64 | `TextModel.v`, `Utf8Model.v` | — |
| `_utils.py`, versions, scripts, merging | `NumModel.v`, `UtilModel.v`, `ObjModel.v` | — |
| `encryption.py` | `EncModel.v`, `ReModel.v` | the security context is an oracle |
| `wsman.py` `_TransportHTTP`, payload size | `TransModel.v` | `requests` itself; the network is an oracle |
| `wsman.py` `WSMan`, sets, faults; `exceptions.py` texts | `XmlModel.v`, `WsmanModel.v` | XML parsing and printing (arguments here, see `XtModel.v`); element tails |
| `shell.py`, `Client.execute_cmd` | `ShellModel.v`; the bytes of its requests `EnvModel.v`; the decoding of the streams `CodeModel.v` (code page 437, the default, and UTF-8) | codecs other than these two (an oracle); a set of options given by the caller is a value, not an object that `open` adds to |
| `powershell.py` `RunspacePool`, `PowerShell` (start, poll, end, stop, close, connect) | `PoolModel.v`; clearing `AgainModel.v`; `PoolToy.v` is a small world for the examples | message objects are abstract: `ev_codec`, `ev_build` and the readers of `env` stand for the serializer and the message classes; the server, the host, key generation, RSA decryption and the clock are oracles; asynchronous use from several threads; generators that raise |
| `host.py` `PSHost`, `PSHostUserInterface`, `PSHostRawUserInterface`; `HostMethodIdentifier` | `HostModel.v` | what `%s` shows of a value that is not a str, and the serialized version, are oracles |
| `negotiate.py` `HTTPNegotiateAuth` | `NegModel.v` | the security context, the network and `spnego.client` are oracles; upper-casing beyond code point 255 |
| `wsman.py` `_build_session`, `_build_auth_*`; `negotiate.py` channel bindings and context arguments | `SessModel.v` | `requests` and its environment settings, the certificate parser and the digests are oracles; a `hostname_override` that is no str; urllib3 older than 1.21 |
| `client.py` `copy`, `fetch`; `copy.ps1`, `fetch.ps1` | `FileModel.v` | SHA1, the remote host (path resolution, UTF-8, case-insensitive comparison, Delete, Move) and the local file system are oracles; the transport of items and output is C40 and C20 |
| `client.py` `execute_ps`, `sanitise_clixml` | `ClientModel.v`; `sanitise_clixml` on characters `ClixModel.v` | `sanitise_clixml` of bytes; the object made of a str and of `True`, and the text of an output object are oracles; `str.join` raising on output that is no str is the oracle's error |
| `serializer.py` `Serializer` on element trees; metadata classes of `complex_objects.py` | `SerModel.v`; on texts `WfModel.v` | XML text (ElementTree printing and parsing appear only as `reparse`: empty text becomes None); floats are their text; `ET.tostring`, `float` and `str` of other values are oracles; `_xml`; that serializing empties a queue or stack; property setters of classes; tags remembered by the metadata of an instance between two serializations |
| `xml.etree.ElementTree` (`tostring`, `fromstring`, `register_namespace`) as the library uses it | `XtModel.v` | not part of `/repo`; written from its Python source and the XML 1.0 and Namespaces recommendations, and compared with Python's parser on some hundred strings, and on 704 more (211 of them well-formed) after declarations, comments, processing instructions and CDATA sections were added. Read as malformed although expat reads them: document types and names outside ASCII; tails are dropped |
| `ElementTree.fromstring` of a response's bytes (`wsman.py` 511, 914-933) | `XgModel.v` | UTF-8 only; other encodings that a byte order mark or declaration may announce are refused |
| `complex_objects.py` `Array` | `ArrModel.v` | that building empties the lists it was given; lengths that are no integers |
| `complex_objects.py` and `messages.py` classes with their properties | `SerClasses.v`, and for `Pipeline`, `HostInfo`, `CreatePipeline`, `InitRunspacePool` `SendClasses.v` with the values of their properties as attributes (computed in `ObjModel.v`, placed by `StartModel.v` and `TellModel.v`) | `Array` (see `ObjModel.v`); constructors of classes that a client does not send |
| `exceptions.py` texts of the errors; `RunspacePoolState.__str__`, `PSInvocationState.__str__` | `ErrModel.v`, `WsmanModel.v`; the arguments of state errors are a table beside the operations of `PoolModel.v` |
| `Serializer._serialize_que`, `_serialize_stk`: the effect on the caller's object | `QueModel.v`; an IndexError or queue.Empty raised by an entry is not told from the end |
| `complex_objects.py` constructors of 26 classes | `NewModel.v`; not `Command`, `Array`, `Pipeline`, `HostInfo` (C63, C71 and C72 cover what they send), not the messages other than records; attributes that no metadata names are left out |
| `_pool_manager.py` | `ConnModel.v` | contexts are those of threads (no copied contexts); the urllib3 and requests objects are reduced to tables of constructors |

## Assumptions per theorem

Every theorem `Cxx_...` of the `*Props.v` files is closed by `Print Assumptions`
immediately after it and prints "Closed under the global context": no axiom is
used by any of them.  Files that load `Lia`/`ZifyBool` pull in the standard
library's `ssrunder` module, whose `Under_rel` module type declares
`Over_rel`, `over_rel`, `over_rel_done`, `Under_rel`, `Under_rel_from_rel`,
`Under_relE`, `under_rel_done`; they occur as library axioms in a check of the
whole context but in no theorem.
