{
 "claims": [
  {
   "property": "C01",
   "status": "proved",
   "theorems": [
    "C01_fragment_roundtrip",
    "C01_pack_error_iff",
    "C01_fragment_layout",
    "C01_unpack_inverse",
    "C01_truncated_payload_accepted_refuted"
   ],
   "note": "Round trip, exact error branch, layout and the converse are proved. Finding recorded as a refuted theorem: a payload cut short of its declared length is accepted."
  },
  {
   "property": "C02",
   "status": "proved",
   "theorems": [
    "C02_single_message"
   ],
   "note": "Proved for every message, limit, grouping into calls and prior receiver state."
  },
  {
   "property": "C03",
   "status": "proved",
   "theorems": [
    "C03_interleaving"
   ],
   "note": "Proved for every set of messages, every cutting into pieces and every order preserving interleaving."
  },
  {
   "property": "C04",
   "status": "partial",
   "theorems": [
    "C04_block_size_partial",
    "C04_block_size_after_negotiation_refuted",
    "C04_block_size_after_negotiation_partial"
   ],
   "note": "Proved before session negotiation; after it the claim is false of the code (no header allowance is subtracted), proved as a refutation for every message of payload length, with the exact bound payload+21."
  },
  {
   "property": "C05",
   "status": "proved",
   "theorems": [
    "C05_fragment_multiple"
   ],
   "note": "Proved for every list of messages and limit."
  },
  {
   "property": "C06",
   "status": "proved",
   "theorems": [
    "C06_receiver_is_sequence_checker",
    "C06_only_originals"
   ],
   "note": "Refinement of the receiver to a sequence checker, including calls after a failed one."
  },
  {
   "property": "C07",
   "status": "proved",
   "theorems": [
    "C07_message_layout",
    "C07_header_roundtrip",
    "C07_message_roundtrip",
    "C07_byte_order_mark",
    "C07_guid_text",
    "C07_missing_pipeline",
    "C07_pack_range",
    "C07_short_data",
    "C07_unknown_type",
    "C07_received_header"
   ],
   "note": "Layout, round trip of header and message, byte order mark, GUID text, missing pipeline, value ranges, short data, unknown types."
  },
  {
   "property": "C08",
   "status": "proved",
   "theorems": [
    "C08_object_ids"
   ],
   "note": "Proved for every history of single and multiple sends."
  },
  {
   "property": "C09",
   "status": "partial",
   "theorems": [
    "C09_string_roundtrip_iff",
    "C09_string_roundtrip_partial",
    "C09_string_roundtrip_common",
    "C09_string_roundtrip_refuted"
   ],
   "note": "The full claim is false of the code: the exact class of strings that do not survive is characterised (iff), the claim is proved for all others and refuted by a witness."
  },
  {
   "property": "C10",
   "status": "partial",
   "theorems": [
    "C10_peer_reads",
    "C10_escaped_output",
    "C10_unchanged_iff",
    "C10_plain_characters",
    "C10_xml_characters",
    "C10_xml_characters_refuted"
   ],
   "note": "Output shape, unchanged strings and plain characters proved for all strings; a peer that follows the protocol reads back the string (C10_peer_reads), without the exceptions of C09; that every output character is an XML character is proved where it holds and refuted by a witness (U+FFFE)."
  },
  {
   "property": "C11",
   "status": "proved",
   "theorems": [
    "C11_base64_roundtrip",
    "C11_base64_ignores",
    "C11_base64_alphabet",
    "C11_base64_length",
    "C11_base64_value"
   ],
   "note": "Round trip, alphabet, length and numeric value of the encoding for all byte strings."
  },
  {
   "property": "C12",
   "status": "proved",
   "theorems": [
    "C12_secure_string_roundtrip",
    "C12_no_key_no_output",
    "C12_no_key_raw_element",
    "C12_only_ciphertext_sent"
   ],
   "note": "Round trip under any cipher that inverts on blocks; nothing but ciphertext is sent; without a key nothing is sent."
  },
  {
   "property": "C13",
   "status": "partial",
   "theorems": [
    "C13_roundtrip_iff",
    "C13_nested_list_refuted",
    "C13_empty_bytes_refuted",
    "C13_hidden_types_refuted"
   ],
   "note": "False as stated. C13_roundtrip_iff: every claimed value is serialized, and it comes back equal exactly if no list has a list or dictionary as a member, no byte string is empty and no text is one that C09 excludes. Refuted: a list in a list comes back as a generic object, an empty byte string raises, and a dictionary after a nested one can raise KeyError."
  },
  {
   "property": "C14",
   "status": "partial",
   "theorems": [
    "C14_ids",
    "C14_types_partial",
    "C14_types_refuted",
    "C14_dangling",
    "C14_lone_ref"
   ],
   "note": "C14_ids: ids are 0,1,2,... in document order, references point backwards, for every value graph and every class description. C14_types_partial: every element depicts its value with the right type names, for graphs of generic objects, lists and dictionaries in which two objects with the same first type name have the same names. C14_types_refuted: without that condition the second object arrives with the names of the first. C14_dangling and C14_lone_ref: reading never turns a Ref or TNRef to an id that nothing introduced into a value. Missing: type names of class instances, queues, stacks and tagged values."
  },
  {
   "property": "C15",
   "status": "proved",
   "theorems": [
    "C15_settings_iff",
    "C15_wraps_iff_required",
    "C15_nothing_in_clear",
    "C15_fresh_after_timeout_refuted"
   ],
   "note": "Which settings are accepted (iff), when a transport encrypts (iff), and for every history of sends and network answers every message is sealed by the context of the last answered probe. Recorded as refuted: after a final timeout the old context is used again without a new probe."
  },
  {
   "property": "C16",
   "status": "proved",
   "theorems": [
    "C16_wrapped_text",
    "C16_wrap_succeeds",
    "C16_roundtrip",
    "C16_roundtrip_padded"
   ],
   "note": "The cut into 16 KiB pieces, the wrapped text, success, the round trip, and the round trip with a padding context, for all messages and contexts whose ciphertext does not contain the delimiters."
  },
  {
   "property": "C17",
   "status": "proved",
   "theorems": [
    "C17_lengths_checked",
    "C17_wellformed_iff",
    "C17_mismatch_raises"
   ],
   "note": "For any body at all: acceptance implies every part has its announced length; iff for well formed bodies; mismatch raises."
  },
  {
   "property": "C18",
   "status": "partial",
   "theorems": [
    "C18_bounded",
    "C18_only_timeouts_are_retried",
    "C18_one_at_a_time",
    "C18_same_message",
    "C18_last_answer_decides",
    "C18_timeout_only_when_exhausted",
    "C18_delays",
    "C18_delays_double_refuted",
    "C18_operations"
   ],
   "note": "Bound, retry only after a timeout, one request at a time, same message each time, last answer decides, timeout only when exhausted, exact delays: all proved. That successive delays double is false of the code (1, 3, 7 after messages) and is proved as a refutation."
  },
  {
   "property": "C19",
   "status": "proved",
   "theorems": [
    "C19_request_headers",
    "C19_accepted_iff_related",
    "C19_unrelated_rejected",
    "C19_ids_distinct",
    "C19_http_errors"
   ],
   "note": "Theorems over any transport and any XML parser; the header of the request carries exactly one message id and only an XML answer relating to it is returned. ET.fromstring and ET.tostring are arguments."
  },
  {
   "property": "C20",
   "status": "proved",
   "theorems": [
    "C20_open_guard",
    "C20_connect_guard",
    "C20_disconnect_guard",
    "C20_other_guards",
    "C20_open_waits",
    "C20_open_creates",
    "C20_disconnect_acts",
    "C20_connect_acts",
    "C20_state_follows_server"
   ],
   "note": "Guards and effects of open, connect, disconnect, reset and metadata for every state and history; other operations follow the states the server reports."
  },
  {
   "property": "C21",
   "status": "proved",
   "theorems": [
    "C21_pool_delete_only_alive",
    "C21_pool_second_close",
    "C21_pool_close_guard",
    "C21_shell_delete_only_alive",
    "C21_shell_deleted_once",
    "C21_shell_second_close",
    "C21_shell_failed_open"
   ],
   "note": "Shells and runspace pools."
  },
  {
   "property": "C22",
   "status": "proved",
   "theorems": [
    "C22_begin_guard",
    "C22_stop_guard",
    "C22_close_guard",
    "C22_reconnect_guard",
    "C22_nested_guard",
    "C22_stop_acts",
    "C22_close_acts",
    "C22_reconnect_acts"
   ],
   "note": "Guards of begin_invoke, stop, close, connect_async and create_nested_power_shell for every state, and the effect of the admitted uses."
  },
  {
   "property": "C23",
   "status": "partial",
   "theorems": [
    "C23_returns",
    "C23_ends",
    "C23_collects_partial",
    "C23_send_timeout_refuted"
   ],
   "note": "Holds for every message sequence, split, interleaving and receive timeouts when no host answer's send times out; refuted otherwise: poll_invoke takes a timeout raised by answering a host call for the timeout of the receive and drops that batch's output (C23_send_timeout_refuted). That waiting returns is proved for answers with reports and with calls that the host has no answer to (C23_returns, C23_ends), not for calls that are answered."
  },
  {
   "property": "C24",
   "status": "partial",
   "theorems": [
    "C24_before_opening",
    "C24_present_value",
    "C24_min",
    "C24_max_partial",
    "C24_fresh_ids",
    "C24_available_sets_max_refuted"
   ],
   "note": "min_runspaces and fresh ids in full; max_runspaces except that get_available_runspaces overwrites it with the number available (C24_available_sets_max_refuted)."
  },
  {
   "property": "C25",
   "status": "proved",
   "theorems": [
    "C25_runs_once",
    "C25_answers_once",
    "C25_only_answers"
   ],
   "note": "Every history: runs of the host are the calls received in order, every answer follows its host run and carries its ids."
  },
  {
   "property": "C26",
   "status": "partial",
   "theorems": [
    "C26_dispatch",
    "C26_every_identifier",
    "C26_place",
    "C26_above_nothing",
    "C26_below_refused",
    "C26_default_complete",
    "C26_no_host_refuted"
   ],
   "note": "Proved for every host and identifier. Refuted: without a host an identifier above 56 makes the caller's poll raise KeyError, since the logged warning names the method."
  },
  {
   "property": "C27",
   "status": "proved",
   "theorems": [
    "C27_version_numeric",
    "C27_version_reflexive",
    "C27_version_transitive",
    "C27_version_total",
    "C27_version_padding",
    "C27_version_empty"
   ],
   "note": "Exact characterisation for dotted decimal versions; reflexive, transitive, total, padding; the empty version raises."
  },
  {
   "property": "C28",
   "status": "proved",
   "theorems": [
    "C28_script_code_lines",
    "C28_script_only_lines",
    "C28_script_idempotent",
    "C28_one_line_block_refuted"
   ],
   "note": "Proved for all scripts made of code, comment, blank lines and multi-line block comments, plus a guarantee for every text; finding: a one-line block comment swallows the following code."
  },
  {
   "property": "C29",
   "status": "partial",
   "theorems": [
    "C29_delivered",
    "C29_checked_partial",
    "C29_mismatch",
    "C29_resized_partial",
    "C29_move_refuted",
    "C29_small_payload_refuted",
    "C29_emptied_refuted"
   ],
   "note": "Proved: with a sane host, a payload that leaves room for data and a file that does not change, the destination holds exactly the content and its path is returned; the script replaces the destination only after the digest of what it wrote agrees with the one sent; a digest that does not match leaves every file as it was. Refuted: a failed move after the delete loses the old file; a payload size of 81 to 83 delivers an empty file without an error; a file emptied while it is read is delivered as empty."
  },
  {
   "property": "C30",
   "status": "partial",
   "theorems": [
    "C30_verified_partial",
    "C30_untouched_partial",
    "C30_temporary",
    "C30_script",
    "C30_whole",
    "C30_short_write_refuted",
    "C30_copy_failed_refuted",
    "C30_empty_refuted"
   ],
   "note": "Proved: success means the destination holds a prefix of the decoded first output whose digest is the last output, and all of it when os.write took all; failures before the copy leave the destination as it was; the temporary file is gone in every case; a file read whole by one read arrives. Refuted: the count of os.write is ignored; a failing copy can leave the destination altered; an empty file cannot be fetched."
  },
  {
   "property": "C31",
   "status": "partial",
   "theorems": [
    "C31_text",
    "C31_text_returned",
    "C31_default_total",
    "C31_text_refused",
    "C31_collected",
    "C31_wait_ends",
    "C31_execute_cmd",
    "C31_exit_code_refuted"
   ],
   "note": "Everything but one clause: an exit code reported before a final answer without one is lost (C31_exit_code_refuted). Decoding is modelled for code page 437 and UTF-8; other codecs are an oracle of which nothing is claimed."
  },
  {
   "property": "C32",
   "status": "proved",
   "theorems": [
    "C32_not_challenged",
    "C32_none_offered",
    "C32_scheme",
    "C32_permitted_only",
    "C32_realm_refuted",
    "C32_sharp_s_refuted"
   ],
   "note": "Stated for header values below code point 256 without the sharp s (C32_sharp_s_refuted shows why). Finding C32_realm_refuted: a scheme name inside another challenge's realm counts as an offer."
  },
  {
   "property": "C33",
   "status": "partial",
   "theorems": [
    "C33_exchange_partial",
    "C33_kept",
    "C33_first_only_refuted",
    "C33_nothing_to_send_refuted"
   ],
   "note": "Feeding and stopping are proved for answers whose token is the base64 text after the first scheme name in the header. Findings: a token after a later scheme name is not read and the exchange stops (C33_first_only_refuted); an incomplete context with nothing to send ends in a TypeError (C33_nothing_to_send_refuted)."
  },
  {
   "property": "C34",
   "status": "partial",
   "theorems": [
    "C34_scoped",
    "C34_block",
    "C34_threads",
    "C34_adapter_partial",
    "C34_adapter_same",
    "C34_reentered_refuted",
    "C34_proxy_refuted"
   ],
   "note": "Proved for programs of with/try blocks at any depth, for interleaved threads, and for the adapter's direct connections. Refuted: connections through a proxy are not guarded (requests makes a separate pool manager), and one object entered inside its own block leaves connections disabled."
  },
  {
   "property": "C35",
   "status": "proved",
   "theorems": [
    "C35_endpoint"
   ],
   "note": "Exact endpoint text; recognition of an IPv6 literal is a parameter."
  },
  {
   "property": "C36",
   "status": "partial",
   "theorems": [
    "C36_payload_fits_partial",
    "C36_payload_maximal",
    "C36_payload_fits_refuted",
    "C36_configured_limit"
   ],
   "note": "False of the code when the room left is 2 or 3 modulo 4 (refuted with a witness, excess 2 bytes); proved otherwise, with the exact bound limit + 2 in every case and maximality."
  },
  {
   "property": "C37",
   "status": "proved",
   "theorems": [
    "C37_array_roundtrip",
    "C37_array_order",
    "C37_array_received",
    "C37_array_mismatch",
    "C37_zero_dimension_refuted"
   ],
   "note": "All ranks and positive dimensions, both directions, row-major order; findings for zero dimensions."
  },
  {
   "property": "C38",
   "status": "proved",
   "theorems": [
    "C38_statements_cut",
    "C38_sent_properties",
    "C38_pipeline_roundtrip",
    "C38_built_statements",
    "C38_no_commands",
    "C38_parameters_in_order"
   ],
   "note": "Cutting, sent properties, round trip through the setters, and the builder calls."
  },
  {
   "property": "C39",
   "status": "partial",
   "theorems": [
    "C39_key_sent_once",
    "C39_blob",
    "C39_blob_made",
    "C39_exchange",
    "C39_reply",
    "C39_request_ignored_refuted"
   ],
   "note": "All but the last clause, which is false: a PUBLIC_KEY_REQUEST is ignored because the handler returns the bound method without calling it (C39_request_ignored_refuted)."
  },
  {
   "property": "C40",
   "status": "partial",
   "theorems": [
    "C40_input_partial",
    "C40_falsy_input_refuted",
    "C40_generator_none_refuted",
    "C40_empty_generator_refuted"
   ],
   "note": "Holds for values, lists and generators that yield at least one item and never None; refuted for falsy input with NoInput, generators that yield None and empty generators (three _refuted theorems)."
  },
  {
   "property": "C41",
   "status": "partial",
   "theorems": [
    "C41_pipeline",
    "C41_open_partial",
    "C41_open_large_refuted"
   ],
   "note": "Pipelines in full; opening a pool only when both messages fit one block, because open sends only the first (C41_open_large_refuted)."
  },
  {
   "property": "C42",
   "status": "proved",
   "theorems": [
    "C42_merge_sets_stream",
    "C42_merge_refused",
    "C42_merge_error",
    "C42_merge_reset",
    "C42_merge_all_output",
    "C42_command_streams",
    "C42_no_version_refuted"
   ],
   "note": "Single streams, errors, merge_all(output), merge_reset and the properties sent per version; finding: ValueError before negotiation."
  },
  {
   "property": "C43",
   "status": "proved",
   "theorems": [
    "C43_host_flags",
    "C43_host_data"
   ],
   "note": "Flags and the ten host data entries for every host."
  },
  {
   "property": "C44",
   "status": "proved",
   "theorems": [
    "C44_stream_options_text",
    "C44_command_type_text",
    "C44_texts_distinct",
    "C44_full_mask",
    "C44_result_types"
   ],
   "note": "Texts for every integer, distinctness over all combinations of defined flags, full-mask names, result types."
  },
  {
   "property": "C45",
   "status": "partial",
   "theorems": [
    "C45_fault_read",
    "C45_decimal_code",
    "C45_text_partial",
    "C45_zero_code_refuted"
   ],
   "note": "The text theorem excludes the numeric code 0, for which the property is refuted (C45_zero_code_refuted)."
  },
  {
   "property": "C46",
   "status": "partial",
   "theorems": [
    "C46_alive",
    "C46_close_after",
    "C46_read_timeout_refuted"
   ],
   "note": "All cases spelled out; the clause on timeouts fails for requests' ReadTimeout, which is not a ConnectionError and is raised (C46_read_timeout_refuted)."
  },
  {
   "property": "C47",
   "status": "proved",
   "theorems": [
    "C47_disconnect_lists",
    "C47_connect_keeps",
    "C47_reconnect",
    "C47_stopped_unlisted",
    "C47_closed_unlisted",
    "C47_listed_pools"
   ],
   "note": "Every history of operations; also pools listed from the server with get_runspace_pools."
  },
  {
   "property": "C48",
   "status": "proved",
   "theorems": [
    "C48_selectors_reused",
    "C48_option_set",
    "C48_selector_set",
    "C48_no_sets"
   ],
   "note": "Packing, placement in the header and reuse of the selectors given by create."
  },
  {
   "property": "C49",
   "status": "proved",
   "theorems": [
    "C49_integers",
    "C49_integers_read",
    "C49_characters",
    "C49_one_character"
   ],
   "note": "Integers under the eight integer tags, given by metadata, by TaggedValue or found for the value; characters under C by code point. Read back through the model of deserialize with whatever metadata."
  },
  {
   "property": "C50",
   "status": "partial",
   "theorems": [
    "C50_success",
    "C50_library",
    "C50_rule",
    "C50_by_type",
    "C50_output_generic",
    "C50_enumeration_refuted",
    "C50_nested_refuted"
   ],
   "note": "C50_success, C50_rule, C50_by_type, C50_output_generic for every element tree and class description whose text does not raise. Missing: the claim is false for enumerations without the value 0 (C50_enumeration_refuted: KeyError, output lost) and for incomplete objects inside other objects (C50_nested_refuted)."
  },
  {
   "property": "C51",
   "status": "proved",
   "theorems": [
    "C51_written_text",
    "C51_set_then_get",
    "C51_gets",
    "C51_version",
    "C51_exit",
    "C51_frame",
    "C51_unimplemented",
    "C51_ignored"
   ],
   "note": "Over the model of the three default host classes; what %s shows of a value that is not a str is an oracle."
  },
  {
   "property": "C52",
   "status": "partial",
   "theorems": [
    "C52_waits_longer_partial",
    "C52_waits_longer_refuted"
   ],
   "note": "Proved when the caller gives a timeout, or when read_timeout exceeds operation_timeout; refuted otherwise: the constructor does not compare the two."
  },
  {
   "property": "C53",
   "status": "proved",
   "theorems": [
    "C53_method",
    "C53_distinct"
   ],
   "note": "Every method of the connection sends the action of its operation, and the actions of different operations differ."
  },
  {
   "property": "C54",
   "status": "proved",
   "theorems": [
    "C54_negotiated",
    "C54_reset_old",
    "C54_reset"
   ],
   "note": "C54_negotiated over every history of operations; C54_reset_old and C54_reset for the reset. The comparison of versions is the function of C27."
  },
  {
   "property": "C55",
   "status": "proved",
   "theorems": [
    "C55_accepts_iff",
    "C55_verify",
    "C55_proxy",
    "C55_retries",
    "C55_authenticator",
    "C55_no_leak",
    "C55_basic_in_clear"
   ],
   "note": ""
  },
  {
   "property": "C56",
   "status": "partial",
   "theorems": [
    "C56_context",
    "C56_service_refuted"
   ],
   "note": "false as documented: the service defaults to host, not WSMAN (C56_service_refuted); everything else is proved by C56_context"
  },
  {
   "property": "C57",
   "status": "partial",
   "theorems": [
    "C57_only",
    "C57_single",
    "C57_output_partial",
    "C57_closes",
    "C57_leak_refuted"
   ],
   "note": "Commands, single pipeline and closing proved for every server; the output theorem needs what C23 needs (no other pipeline or host call disturbs the stream); a shell whose pool fails to open is never deleted (refuted)."
  },
  {
   "property": "C58",
   "status": "partial",
   "theorems": [
    "C58_plain",
    "C58_no_document",
    "C58_errors_partial",
    "C58_lines",
    "C58_joined_refuted",
    "C58_spelled_partial",
    "C58_malformed",
    "C58_process_partial",
    "C58_rest_refuted"
   ],
   "note": "Exact condition proved, also on the characters of the document however it is spelled and from the pieces of a process's stderr (ClixProps.v); strings whose joining forms an escape are misread (C58_joined_refuted); a second document, or plain text, after the first makes it raise (C58_rest_refuted)."
  },
  {
   "property": "C59",
   "status": "partial",
   "theorems": [
    "C59_roundtrip_partial",
    "C59_library_partial",
    "C59_described",
    "C59_names",
    "C59_shared_name_refuted",
    "C59_parameter_names_refuted",
    "C59_member_refuted"
   ],
   "note": "Proved for all values that conform (ClsSpec.v): primitives, flat lists, dictionaries, tagged values, typed lists and instances of plainly described classes to any depth; missing: queues, stacks, ObjDynamic and DT attributes. False for ErrorRecordMessage, for dictionaries with plain string keys and for instances in untyped lists (three refutations)."
  },
  {
   "property": "C60",
   "status": "partial",
   "theorems": [
    "C60_carried_partial",
    "C60_line_ends",
    "C60_told_apart",
    "C60_python_prefixes",
    "C60_library_prefixes",
    "C60_carriage_return_refuted",
    "C60_noncharacter_refuted",
    "C60_surrogate_refuted",
    "C60_property_name_refuted"
   ],
   "note": "Proved for trees without carriage returns in texts (C60_line_ends covers those); texts the serializer makes may hold U+FFFE, surrogates or, in property names, control characters, which is refuted."
  },
  {
   "property": "C61",
   "status": "partial",
   "theorems": [
    "C61_document",
    "C61_written",
    "C61_copy_partial",
    "C61_library_partial",
    "C61_names",
    "C61_noncharacter_refuted",
    "C61_unescaped_refuted"
   ],
   "note": "The tree is proved for every accepted value; the copy as far as C59 (no queues, stacks, dynamic objects, DT). Refuted for U+FFFE, U+FFFF in strings and control characters in unescaped texts: the reader returns the markup as a string."
  },
  {
   "property": "C62",
   "status": "partial",
   "theorems": [
    "C62_object_partial",
    "C62_data_partial",
    "C62_types",
    "C62_protocol",
    "C62_end_of_input_refuted",
    "C62_connect_refuted"
   ],
   "note": "Proved for every message object that fits its class and is of a class C59 covers, and for pipeline input and output; not covered: what C59/C61 leave out. Refuted for END_OF_PIPELINE_INPUT and a ConnectRunspacePool without limits, whose texts Message.unpack cannot read (a client never receives them)."
  },
  {
   "property": "C63",
   "status": "partial",
   "theorems": [
    "C63_start_partial",
    "C63_open_partial",
    "C63_apartment_refuted"
   ],
   "note": "Proved from the arguments of begin_invoke and open to the object read from the fragments, for hosts without raw user interface (what is told of those is C72); the reader knows the same metadata (the library cannot read these messages itself). Refuted for apartment state 0, which is taken for not given."
  },
  {
   "property": "C64",
   "status": "partial",
   "theorems": [
    "C64_request_partial",
    "C64_uses_partial",
    "C64_execute_partial",
    "C64_same_text",
    "C64_control_refuted",
    "C64_return_refuted",
    "C64_process_id_refuted",
    "C64_reopen_refuted"
   ],
   "note": "All requests and uses of a shell made of XML characters are read as asked; carriage returns arrive as line feeds and control characters make an unreadable request (refuted). Also refuted: the id given to a Process is never sent; a shell opened again asks for another idle time."
  },
  {
   "property": "C65",
   "status": "partial",
   "theorems": [
    "C65_legible_partial",
    "C65_open_partial",
    "C65_begin_partial"
   ],
   "note": "Every request of any sequence of operations is read from its bytes as it was asked; opening and starting are read as the blocks of their messages. Ids and settings must be made of XML characters (C64 has the refutations); the content of messages is C61 to C63."
  },
  {
   "property": "C66",
   "status": "partial",
   "theorems": [
    "C66_messages_partial",
    "C66_started_partial",
    "C66_opened_partial",
    "C66_nothing",
    "C66_declared_refuted"
   ],
   "note": "Every kind of message, begin_invoke and open with the library's own serializer, XML text, message format and fragmenter: what the server reassembles and reads says what the call said. Finding: an input that Python takes for false, such as 0, is sent to a pipeline created as one without input (C66_declared_refuted). Missing: hosts with a raw user interface (covered by C72 in another form); values and texts that C59 and C60 exclude; openings of several blocks (C41_open_large_refuted)."
  },
  {
   "property": "C67",
   "status": "partial",
   "theorems": [
    "C67_read_partial",
    "C67_text_partial",
    "C67_types",
    "C67_classes",
    "C67_enumerable_refuted",
    "C67_decorated_refuted",
    "C67_nested_refuted",
    "C67_untyped_refuted",
    "C67_list_properties_refuted",
    "C67_order_refuted",
    "C67_generics",
    "C67_object_list_refuted"
   ],
   "note": "Reading what a server writes: read for all documents of RdSpec.readable; enumerables, decorated primitives, lists nested in Object[], untyped objects in lists, properties of lists, properties out of class order and generic lists of types without a structure are refuted."
  },
  {
   "property": "C68",
   "status": "partial",
   "theorems": [
    "C68_read",
    "C68_one_meaning",
    "C68_body",
    "C68_objects_partial",
    "C68_response",
    "C68_fault",
    "C68_exactly",
    "C68_nothing",
    "C68_body_exactly",
    "C68_accepted",
    "C68_faulted",
    "C68_no_objects"
   ],
   "note": "Read exactly: a text is read as a tree iff it says it (C68_exactly, C68_nothing), for bodies, responses, faults and objects. Missing: document types, non-ASCII names, encodings other than UTF-8 (all refused by the model); objects within C67's limits."
  },
  {
   "property": "C69",
   "status": "partial",
   "theorems": [
    "C69_ends_partial",
    "C69_message_partial",
    "C69_honest",
    "C69_waited_partial",
    "C69_told",
    "C69_pool"
   ],
   "note": "The limits of C67 (what the serializer can read) and C23 (no operation timeout in answering the host). That end_invoke returns is a hypothesis of C69_waited_partial and a conclusion of C69_ends_partial, for answers with reports only. C69_told covers the messages for a pool and calls to the host, for properties of the types the protocol gives them."
  },
  {
   "property": "C70",
   "status": "partial",
   "theorems": [
    "C70_message_partial",
    "C70_named_refuted",
    "C70_spelling_refuted",
    "C70_readable_partial",
    "C70_held",
    "C70_heard_partial",
    "C70_failure_refuted"
   ],
   "note": "Messages sent: header and object in the form of an independent table of MS-PSRP (C70_message_partial); values of any type only by their names (C59, C61). Received: objects in the form of the protocol are read (C70_readable_partial, C70_heard_partial) and held by name (C70_held). Refuted: a generic object given twice is sent the second time without its property's name; UNKNOWN and GetRunspce are misspelled; the failure of a pool is taken from a property of any name."
  },
  {
   "property": "C71",
   "status": "partial",
   "theorems": [
    "C71_flattened",
    "C71_received",
    "C71_ends",
    "C71_roundtrip_partial",
    "C71_empty_refuted",
    "C71_rows_refuted",
    "C71_unseen_refuted",
    "C71_lengths_refuted",
    "C71_forever_refuted",
    "C71_ragged_refuted"
   ],
   "note": "Flattening, building and that it ends are proved for all rectangular arrays with positive lengths; through the text for elements that C61 covers. Refuted: empty arrays cannot be sent and lose rows when received, a received array cannot be sent on before it was looked at, lengths that do not fit the elements are not noticed or loop forever, ragged rows come back as others."
  },
  {
   "property": "C72",
   "status": "proved",
   "theorems": [
    "C72_screen"
   ],
   "note": "For every host and both messages that carry it, a reader that knows only trees, names, numbers and strings (ScreenSpec.v) finds the flags and, of a host with a raw user interface, exactly the ten settings (C72_screen)."
  },
  {
   "property": "C73",
   "status": "partial",
   "theorems": [
    "C73_open_partial",
    "C73_min_partial",
    "C73_max_partial",
    "C73_reset_partial",
    "C73_available_partial",
    "C73_slow_opening_refuted",
    "C73_slow_limit_refuted",
    "C73_keys_partial",
    "C73_keys_held",
    "C73_slow_key_refuted"
   ],
   "note": "open, the two limits, reset, get_available_runspaces and exchange_keys return once the server has answered, if no answer is a timeout. Refuted for slow servers: the waits of a pool, unlike those of a pipeline, do not catch the operation timeout, so opening raises with the pool stuck in NegotiationSent, a limit the server has changed is not the client's, and an exchange of keys that failed is never tried again while every later call returns as if there were a key. Not covered: connect."
  },
  {
   "property": "C74",
   "status": "partial",
   "theorems": [
    "C74_kept_partial",
    "C74_sent_partial",
    "C74_unsent",
    "C74_culture_refuted",
    "C74_error_refuted",
    "C74_invocation_refuted",
    "C74_unset",
    "C74_unset_method",
    "C74_unset_refuted",
    "C74_truth_refuted"
   ],
   "note": "Holds for every attribute but the nine listed in the statement. Two classes, CultureInfo and ErrorRecord, cannot be sent at all when made by their constructors (proved for all arguments; AttributeError for a host that answers GetCurrentCulture); InformationalRecord and its subclasses ignore invocation. Sending is for attributes whose values fit the metadata (C59); an enumeration made with nothing given is sent under the name of zero with no number, and one made with a truth value is written with a number that cannot be read."
  },
  {
   "property": "C75",
   "status": "partial",
   "theorems": [
    "C75_transport",
    "C75_fault",
    "C75_fault_told_partial",
    "C75_fault_told_refuted",
    "C75_numbers",
    "C75_names",
    "C75_refusal",
    "C75_state_told",
    "C75_accepted",
    "C75_unknown_state_refuted"
   ],
   "note": "Texts of errors: transport and state errors tell their arguments apart, each detail of a fault is in its text; refuted for faults with commas in their details and for states that the protocol does not have."
  },
  {
   "property": "C76",
   "status": "partial",
   "theorems": [
    "C76_queue_partial",
    "C76_stack_partial",
    "C76_taken",
    "C76_mixed_refuted",
    "C76_stack_refuted",
    "C76_again_refuted",
    "C76_tagged_refuted"
   ],
   "note": "Queues and stacks of scalars of one sort are read back (a stack turned over); mixed values, sending twice, stacks sent on and tagged lists are refuted; sending always empties the caller's object (C76_taken)."
  },
  {
   "property": "C77",
   "status": "partial",
   "theorems": [
    "C77_listed_partial",
    "C77_requests",
    "C77_other_shells_refuted",
    "C77_part_refuted"
   ],
   "note": "Proved for servers that tell all shells in one answer: ids, order, states, pipelines and the exact requests. Refuted: a command shell, or a pool of another configuration, is listed as a pool of Microsoft.PowerShell; an answer that says there is more (no EndOfSequence, an EnumerationContext) is taken for all."
  },
  {
   "property": "C78",
   "status": "partial",
   "theorems": [
    "C78_apart",
    "C78_disconnect",
    "C78_pipeline_id_refuted",
    "C78_refused_start_refuted",
    "C78_completed_refuted",
    "C78_asked",
    "C78_asked_reached",
    "C78_pool_asked",
    "C78_metadata_asked"
   ],
   "note": "Proved for all histories, servers and messages, with pipelines of different ids; the requests of a call on a pipeline name it only (C78_asked, C78_asked_reached) and those of a call on the pool name none (C78_pool_asked). Refuted: the pipeline id in a message is ignored, the pipeline that polls gets it; disconnecting a pool marks pipelines as disconnected that never started or have completed."
  },
  {
   "property": "C79",
   "status": "partial",
   "theorems": [
    "C79_opened_partial",
    "C79_kept",
    "C79_settings_refuted",
    "C79_retried_refuted"
   ],
   "note": "What each open asks for and what the set has afterwards, for any number of shells. The rest is false: WinRS.open adds its settings to the caller's OptionSet (C79_settings_refuted, C79_retried_refuted). Opening one shell again after a failure is modelled as opening another with the same settings in C79_opened_partial."
  },
  {
   "property": "C80",
   "status": "partial",
   "theorems": [
    "C80_cleared",
    "C80_started",
    "C80_again_partial",
    "C80_had_errors_refuted",
    "C80_not_cleared_refuted",
    "C80_never_reset"
   ],
   "note": "All of it but had_errors, within the limits of C69 (C80_cleared, C80_started, C80_again_partial). Refuted: had_errors stays true after a later run without errors (C80_had_errors_refuted); without clear_streams the output of the earlier runs is returned again (C80_not_cleared_refuted)."
  }
 ]
}