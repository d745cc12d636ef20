{
 "claims": [
  {
   "property": "C01",
   "status": "proved",
   "theorems": [
    "C01_dict_refines_folded_map"
   ],
   "note": "Refinement of a plain map keyed by the folded name for every sequence of operations."
  },
  {
   "property": "C02",
   "status": "partial",
   "theorems": [
    "C02_enumeration_covers_current_partial",
    "C02_enumeration_exact_partial",
    "C02_copy_preserves_lookups_partial",
    "C02_enumeration_refuted",
    "C02_duplicate_entries_refuted",
    "C02_copy_stale_refuted",
    "C02_update_from_raises_refuted",
    "C02_pop_not_case_insensitive_refuted",
    "C02_pop_stored_spelling_partial",
    "C02_pop_unknown"
   ],
   "note": "False of the code as stated: re-setting a key under another casing leaves the old spelling enumerable (stale values, duplicate entries, KeyError when copying from another dict, pop). The *_partial theorems give what does hold: every current name is enumerated, and enumeration is exact when no name was written under two spellings. The *_refuted theorems are machine-checked counterexamples."
  },
  {
   "property": "C03",
   "status": "proved",
   "theorems": [
    "C03_validate_values_exact",
    "C03_rejected_write_changes_nothing",
    "C03_valid_write_accepted",
    "C03_update_all_or_nothing",
    "C03_dict_validated_iff_every_entry_is",
    "C03_contents_always_typed",
    "C03_contains_means_nonempty",
    "C03_setdefault_refused",
    "C03_setdefault_present",
    "C03_setdefault_absent",
    "C03_iterattrs",
    "C03_deepcopy",
    "C03_marker_not_iterable"
   ],
   "note": "Exact typing of writes, rejected writes change nothing, update is all-or-nothing, `in` means non-empty."
  },
  {
   "property": "C04",
   "status": "proved",
   "theorems": [
    "C04_index_finds_first_match",
    "C04_index_not_found",
    "C04_unknown_attribute_index",
    "C04_value_list_operations_agree",
    "C04_invalid_assertion_refuted"
   ],
   "note": "First match under the rule; ValueError iff absent; in/count/index/remove agree. The clause that an invalid assertion raises ValueError is false (another exception escapes): C04_invalid_assertion_refuted; the property text was corrected accordingly."
  },
  {
   "property": "C05",
   "status": "proved",
   "theorems": [
    "C05_add_sends_exactly_the_missing",
    "C05_add_succeeds",
    "C05_repeated_request_value_refuted",
    "C05_delete_all_refused"
   ],
   "note": "Exact modlist, and totality. A value repeated within one request is sent twice (C05_repeated_request_value_refuted): the property is about values of the request relative to the object."
  },
  {
   "property": "C06",
   "status": "proved",
   "theorems": [
    "C06_delete_sends_exactly_the_present",
    "C06_delete_succeeds"
   ],
   "note": "Exact modlist, and totality."
  },
  {
   "property": "C07",
   "status": "proved",
   "theorems": [
    "C07_modify_sends_exactly_the_wanted",
    "C07_empty_list_rejected_before_sending",
    "C07_guards",
    "C07_resend_refuted",
    "C07_bad_keyword_always_raises_refuted",
    "C07_warnings"
   ],
   "note": "One request with exactly the wanted changes in order, or nothing. Two side findings refute stronger readings (resending a used DELETE_ALL Mod; invalid keywords unnoticed when everything is skipped)."
  },
  {
   "property": "C08",
   "status": "partial",
   "theorems": [
    "C08_local_mirrors_server_partial",
    "C08_dict_ok_reachable",
    "C08_refused_modify_changes_nothing",
    "C08_skipped_empty_list_refuted",
    "C08_replace_absent_refuted",
    "C08_delete_value_after_last_refuted",
    "C08_needs_a_connection"
   ],
   "note": "False in general: three machine-checked counterexamples (skipped empty list, clearing an absent attribute, deleting a value twice). Proved under the explicit condition `safe`, against a reference RFC 4511 server."
  },
  {
   "property": "C09",
   "status": "proved",
   "theorems": [
    "C09_add_twice_sends_nothing",
    "C09_delete_twice_sends_nothing"
   ],
   "note": "Second add/delete sends nothing; hypotheses: the equality rule is the one used locally, values are distinct as on a server."
  },
  {
   "property": "C10",
   "status": "proved",
   "theorems": [
    "C10_nothing_sent_without_commit",
    "C10_pending_and_sent_follow_ledger",
    "C10_commit_publishes_the_view",
    "C10_exit_drops_pending",
    "C10_rejected_commit_changes_nothing",
    "C10_commit_retry_refuted",
    "C10_failed_modify_stays_pending_refuted",
    "C10_readd_after_delete_refuted",
    "C10_initial_view_refuted"
   ],
   "note": "Isolation, ledger (pending/sent), view after commit, exit, rejected commit. The ledger theorem is exact for every history of calls, including failing ones; the *_refuted theorems are machine-checked counterexamples to stronger readings (retry after a rejected commit loses DELETE_ALL, a failing modify stays pending), for re-adding a deleted value with strict_modify off, and for objects written under two spellings."
  },
  {
   "property": "C11",
   "status": "proved",
   "theorems": [
    "C11_uncommitted_checkpoint_changes_nothing",
    "C11_committed_checkpoint_joins",
    "C11_failed_checkpoint_commit_refuted"
   ],
   "note": "Uncommitted checkpoints change nothing; committed ones join. C11_failed_checkpoint_commit_refuted: a commit that fails while being applied joins AND stays pending."
  },
  {
   "property": "C12",
   "status": "proved",
   "theorems": [
    "C12_refused_operations",
    "C12_invalid_modify_changes_nothing"
   ],
   "note": "All writing methods other than modify, and modify with keywords, raise without effect."
  },
  {
   "property": "C13",
   "status": "proved",
   "theorems": [
    "C13_no_special_characters",
    "C13_single_equality_test",
    "C13_conjunction",
    "C13_disjunction",
    "C13_accepted"
   ],
   "note": "For every input; the comparison is read as itself or not at all, alone or in a conjunction/disjunction."
  },
  {
   "property": "C14",
   "status": "partial",
   "theorems": [
    "C14_standard_parser_exact",
    "C14_reparse_valid_partial",
    "C14_reparse_valid_exact_partial",
    "C14_reparse_parsed_partial",
    "C14_refuted_trailing_star"
   ],
   "note": "Exact characterisation of the standard parser, and parse(print f) = f for every valid f except that a final empty \"any\" part is lost (C14_refuted_trailing_star); C14_reparse_* give the exact result in that case too."
  },
  {
   "property": "C15",
   "status": "proved",
   "theorems": [
    "C15_standard_in_unified",
    "C15_simple_in_unified"
   ],
   "note": "Also for the simple syntax. Follows from exact characterisations of the three parsers."
  },
  {
   "property": "C16",
   "status": "proved",
   "theorems": [
    "C16_simple_exact",
    "C16_unified_exact",
    "C16_unambiguous",
    "C16_precedence"
   ],
   "note": "The parser accepts exactly the renderings of logic expressions, with any spacing, and returns their meaning; unambiguous."
  },
  {
   "property": "C17",
   "status": "partial",
   "theorems": [
    "C17_short_names_accepted_partial",
    "C17_small_oids_accepted_partial",
    "C17_accepted_attributes",
    "C17_refuted_multidigit_arc",
    "C17_refuted_rule_dn_prefix"
   ],
   "note": "Proved for all short names with options and for OIDs with single-digit arcs; refuted for OIDs with multi-digit arcs (ordered choice in the grammar) and for matching rules whose name starts with dn."
  },
  {
   "property": "C18",
   "status": "proved",
   "theorems": [
    "C18_character_mapping",
    "C18_character_mapping_idempotent",
    "C18_space_idempotent",
    "C18_space_canonical",
    "C18_equal_iff_same_words",
    "C18_caseExactMatch_compares_words",
    "C18_numeric_removes_exactly_spaces",
    "C18_phone_removes_exactly_spaces_and_hyphens",
    "C18_numeric_phone_idempotent",
    "C18_caseIgnoreMatch_compares_words",
    "C18_numericStringMatch_ignores_spaces",
    "C18_telephoneNumberMatch_ignores_spaces_and_hyphens",
    "C18_strip"
   ],
   "note": "For all strings; NFKC and casefold are arbitrary functions (NFKC assumed not to introduce white space other than U+0020 in the whole-rule theorem)."
  },
  {
   "property": "C19",
   "status": "partial",
   "theorems": [
    "C19_prohibit_exactly_partial",
    "C19_refuted_later_characters",
    "C19_refuted_missing_range",
    "C19_refuted_letter_F"
   ],
   "note": "False of the code: re.match looks at the first character only, the table contains the letter F (typo \\u02EF-\\u02FFF) and omits U+0350-U+035F. C19_prohibit_exactly_partial gives the exact behaviour relative to the RFC tables for every string."
  },
  {
   "property": "C20",
   "status": "partial",
   "theorems": [
    "C20_no_loss_duplication_or_reordering_partial",
    "C20_next_is_the_next_one_partial",
    "C20_single_reader_any_chunking",
    "C20_recv_one_with_whole_messages",
    "C20_refuted_recv_one_drops_bytes",
    "C20_refuted_interleaved_readers_corrupt",
    "C20_refuted_stale_queue_reorders",
    "C20_refuted_eof_never_ends",
    "C20_refuted_unsolicited_drops_bytes"
   ],
   "note": "False of the code without a discipline on readers (five refutations: recv_one drops bytes, interleaved readers corrupt, stale queue reorders, EOF spins, unsolicited drops bytes). Proved for every history in which no undecoded bytes are held by another reader and no stale reader is resumed; for one reader with any chunking; and for recv_one sequences with one message per read."
  },
  {
   "property": "C21",
   "status": "proved",
   "theorems": [
    "C21_message_ids",
    "C21_ids_are_consecutive"
   ],
   "note": "For every history of sends, including ones that fail to encode after the counter was incremented."
  },
  {
   "property": "C22",
   "status": "partial",
   "theorems": [
    "C22_refusals",
    "C22_every_history",
    "C22_bind_outcome",
    "C22_operation_outcome",
    "C22_sasl_outcome",
    "C22_failed_connect",
    "C22_sasl_raises_but_bound",
    "C22_refuted_unguarded"
   ],
   "note": "Proved for every history of connects, binds, unbinds and operations: nothing goes out after unbind, no bind request after a successful bind, flags exact. The part \"every operation raises ConnectionUnbound\" is false for extended operations/abandon (OS error) and modify with an empty modlist (succeeds): C22_refuted_unguarded."
  },
  {
   "property": "C23",
   "status": "partial",
   "theorems": [
    "C23_closed_iff_unused_partial",
    "C23_new_connection_is_open_partial",
    "C23_one_socket_per_uri_partial",
    "C23_refuted_bare_host",
    "C23_refuted_double_unbind",
    "C23_refuted_failed_constructor",
    "C23_refuted_private_unregisters"
   ],
   "note": "False of the code in general (four refutations: bare host, double unbind, failed constructor, private connection). Proved for every history under the discipline [safe]."
  },
  {
   "property": "C24",
   "status": "partial",
   "theorems": [
    "C24_controls_exactly",
    "C24_errors",
    "C24_calls_partial",
    "C24_refuted_extended_and_empty_modify"
   ],
   "note": "Keyword processing itself: exact for all dictionaries, registries and capability sets. \"TypeError before anything is sent\" fails for extended requests (sent first) and for modify without changes (keywords ignored): C24_refuted_extended_and_empty_modify."
  },
  {
   "property": "C25",
   "status": "partial",
   "theorems": [
    "C25_unambiguous",
    "C25_existing_entries_kept",
    "C25_accepted_is_registered",
    "C25_rejected_changes_nothing_partial",
    "C25_refuted_half_registered"
   ],
   "note": "Unambiguity proved for all registration sequences. \"A rejected registration leaves the registry unchanged\" is false when the response OID is the offending part (C25_refuted_half_registered); proved for controls with only one of the two OIDs."
  },
  {
   "property": "C26",
   "status": "proved",
   "theorems": [
    "C26_exactly",
    "C26_never_overwrites",
    "C26_unregistered_is_an_error"
   ],
   "note": "Exact characterisation for all response control lists; handle() is an arbitrary function per control."
  },
  {
   "property": "C27",
   "status": "partial",
   "theorems": [
    "C27_validate_object_partial",
    "C27_needs_objectclass",
    "C27_refuted_case",
    "C27_refuted_unknown_oid",
    "C27_refuted_extensible_object",
    "C27_refuted_undefined_attribute"
   ],
   "note": "Exact iff for every object, acyclic schema and history of earlier list computations, with attribute names compared exactly and every attribute having a registered type. Outside that the code deviates: case of names, extensibleObject, unknown class OIDs (KeyError), attributes without a type stop the checks (C27_refuted_*)."
  },
  {
   "property": "C28",
   "status": "proved",
   "theorems": [
    "C28_inherited_from_all_superclasses",
    "C28_same_answer_again",
    "C28_always_ends",
    "C28_refuted_late_registration",
    "C28_refuted_unknown_oid",
    "C28_refuted_cycle"
   ],
   "note": "For every acyclic schema with a fixed set of registered classes and every history of accesses; evaluation ends even for cyclic ones. Stronger readings fail: superclass registered later, unknown superclass OID, cycles (C28_refuted_*)."
  },
  {
   "property": "C29",
   "status": "proved",
   "theorems": [
    "C29_nearest_supertype",
    "C29_always_defined",
    "C29_own_wins",
    "C29_refuted_unregistered_supertype",
    "C29_refuted_cycle"
   ],
   "note": "Exact for chains of any depth. Supertypes nobody registered and supertype cycles make features unavailable (C29_refuted_*)."
  },
  {
   "property": "C30",
   "status": "partial",
   "theorems": [
    "C30_attribute_partial",
    "C30_value_errors",
    "C30_modify_partial",
    "C30_refuted_delete_all",
    "C30_refuted_undefined_attribute"
   ],
   "note": "Exact iff for registered attribute types. Changes without values are never rejected (C30_refuted_delete_all) and an attribute without a type ends the checks (C30_refuted_undefined_attribute)."
  },
  {
   "property": "C31",
   "status": "proved",
   "theorems": [
    "C31_restored",
    "C31_exactly_named_off",
    "C31_nested",
    "C31_refuted_reuse"
   ],
   "note": "For all names, nestings and bodies (which may change the list and raise). Re-entering one context object is not restored (C31_refuted_reuse)."
  },
  {
   "property": "C32",
   "status": "partial",
   "theorems": [
    "C32_lines_bounded_partial",
    "C32_unfolding_restores_lines",
    "C32_refuted_dn_not_folded"
   ],
   "note": "Proved: after unfolding the output is the unbroken lines again (for all writable objects), and every physical line but the dn line has at most 76 characters. Refuted: the dn line is never folded."
  },
  {
   "property": "C33",
   "status": "partial",
   "theorems": [
    "C33_literal_iff",
    "C33_reading_gives_the_object_partial",
    "C33_refuted_trailing_newline",
    "C33_refuted_literal_not_safe",
    "C33_text_is_utf8",
    "C33_utf8_unambiguous",
    "C33_base64_is_rfc4648",
    "C33_value_line",
    "C33_reading_by_the_rfcs_partial"
   ],
   "note": "Proved: exact condition for a literal value, and reading the whole output per RFC 2849 returns DN and all values, provided no text value is a safe string followed by a single line feed. Refuted: such a value is written literally and loses the line feed."
  },
  {
   "property": "C34",
   "status": "partial",
   "theorems": [
    "C34_operations_of_the_records_partial",
    "C34_comments_ignored",
    "C34_refused_record_stops",
    "C34_refuted_modify_base64",
    "C34_refuted_modify_wrong_attribute",
    "C34_refuted_add_base64_stripped",
    "C34_refuted_colon_less_than",
    "C34_refuted_version_then_empty_line",
    "C34_refuted_control_without_value",
    "C34_refuted_comment_after_control",
    "C34_refuted_comment_block",
    "C34_refuted_comment_fetched",
    "C34_refuted_plain_control_value",
    "C34_refuted_content_record",
    "C34_refuted_not_checked_first",
    "C34_refuted_form_feed",
    "C34_octets_and_unknown_controls_partial",
    "C34_refuted_repeated_control",
    "C34_refuted_white_space_lost",
    "C34_line_ends",
    "C34_decoders"
   ],
   "note": "Proved: for every list of well-formed change records (add/delete/modify/moddn with controls, base64 or plain fields, any folding, optional version line) exactly the described operations are attempted in order until one fails; and a record that is refused (no dn or changetype, attribute options, malformed modification or moddn, unknown critical control, ...) stops the run with its exception after exactly the operations of the records before it; comment lines anywhere but after a control line make no difference; additions with any octets in base64 and controls that are passed over (C34_octets_and_unknown_controls_partial); line ends LF or CR LF, for any text (C34_line_ends). Refuted: a second control line of the same kind replaces the first, a comment after a control, a block of comments only, :< in a comment, plain control values (taken for base64), base64 or colon values in modify records, stripped base64 values, :< inside a value, empty line after version, controls without value, content records, form feeds, no check before execution."
  },
  {
   "property": "C35",
   "status": "partial",
   "theorems": [
    "C35_triple_meaning",
    "C35_triple_roundtrip_partial",
    "C35_triple_injective",
    "C35_refuted_comma",
    "C35_user_list",
    "C35_host_list",
    "C35_user_list_accepted",
    "C35_host_list_accepted",
    "C35_meaning_unique"
   ],
   "note": "Proved: exact meaning of every triple text; exactly the triples without commas (host, user) and closing parenthesis (domain) round-trip; member lists are accepted iff every entry has a documented meaning and become exactly those triples and groups. Refuted: a user name with a comma reads back as another user."
  },
  {
   "property": "C36",
   "status": "partial",
   "theorems": [
    "C36_direct",
    "C36_direct_hosts",
    "C36_users_exact",
    "C36_hosts_exact",
    "C36_terminates_partial",
    "C36_refuted_cycle",
    "C36_refuted_object_methods"
   ],
   "note": "Proved: a recursive lookup that returns has returned exactly the members of all reachable groups; it returns for every acyclic graph (given stack). Refuted: it fails on every graph with a reachable cycle; get_users/get_hosts of a netgroup object always raise."
  },
  {
   "property": "C37",
   "status": "partial",
   "theorems": [
    "C37_read",
    "C37_calls_partial",
    "C37_add",
    "C37_replace_partial",
    "C37_delete_partial",
    "C37_refuted_spelling",
    "C37_refuted_last",
    "C37_refuted_equals",
    "C37_refuted_same_dict",
    "C37_refuted_two_objects",
    "C37_refuted_failure",
    "C37_refuted_outside"
   ],
   "note": "Reading is exact (C37_read). For any number of add/replace/delete calls with unshared lists, however many of them fail, the shown values follow the calls and after a successful call the entry's descriptions say exactly that, ordinary descriptions are kept, nothing else changes (C37_calls_partial; one-call forms C37_add, C37_replace_partial, C37_delete_partial). Refuted: replace under another spelling leaves the old values; deleting the last description is never sent; keys containing '='; lists shared with the caller (add then delete with the same dict leaves every second value; two objects given one dict contaminate each other); a failed call's change goes out with the next call; descriptions added outside are lost."
  },
  {
   "property": "C38",
   "status": "partial",
   "theorems": [
    "C38_accepts_exactly_partial",
    "C38_never_refuses_a_proper_certificate",
    "C38_strict_without_wildcards_partial",
    "C38_tls_verified",
    "C38_refuted_wildcard_spans_labels",
    "C38_refuted_other_name_types"
   ],
   "note": "The one-label reading of wildcards is false of the code (C38_refuted_wildcard_spans_labels), and so is ignoring other name types (C38_refuted_other_name_types). C38_accepts_exactly_partial is an exact iff for every host and certificate; certificates acceptable under the strict reading are never refused."
  },
  {
   "property": "C39",
   "status": "partial",
   "theorems": [
    "C39_default_port",
    "C39_explicit_port",
    "C39_ldapi",
    "C39_bare",
    "C39_unsupported",
    "C39_two_separators",
    "C39_reported_uri_is_equivalent",
    "C39_refuted_empty",
    "C39_refuted_ipv6_slash_case"
   ],
   "note": "Proved for every host part that contains no colon of its own, any scheme and any percent decoder. Outside that the code misbehaves: empty string (IndexError), IPv6 literals (ValueError or wrong host), trailing slash, upper-case scheme (C39_refuted_*)."
  },
  {
   "property": "C40",
   "status": "partial",
   "theorems": [
    "C40_move_request_partial",
    "C40_object_mod_dn_partial",
    "C40_object_move_partial",
    "C40_object_mod_dn_succeeds_partial",
    "C40_move_refuted_backslash",
    "C40_rename_refuted_escaped_comma",
    "C40_rename_refuted_local"
   ],
   "note": "Proved for every lawful server: objects that show their entry and have plain RDNs keep DN and values in step with the directory under mod_dn, rename and move, and refused requests change nothing; LDAP.move splits at the first comma not in an escape pair unless the RDN ends in a backslash. Refuted: RDN ending in an escaped backslash, RDN with escaped comma (objects), multi-valued RDNs, object without its naming attribute, one-component DN."
  },
  {
   "property": "C41",
   "status": "partial",
   "theorems": [
    "C41_registered_at_most_once",
    "C41_registered_elements_resolve",
    "C41_bindings_never_replaced",
    "C41_require_again_no_effect",
    "C41_exactly_once_partial",
    "C41_exactly_once_flat_partial",
    "C41_refuted_package_own_elements_skipped",
    "C41_refuted_submodule_after_package",
    "C41_refuted_late_declaration_ignored",
    "C41_refuted_failed_require_not_retryable",
    "C41_refuted_duplicate_syntax_rule_error"
   ],
   "note": "Unconditional: an element with an identifier is never registered twice, registered elements resolve under all their identifiers from then on, no binding is replaced, and repeating a successful require() has no effect. Exactly-once (C41_exactly_once_partial) needs: complete and conflict-free declarations, modules imported before being required, package and submodule not both required, package declaring its own elements before importing submodules. Each of these is necessary in the code: counterexamples refute the unrestricted English claim (own elements of a package are silently skipped when a submodule came first; requiring a submodule after its package raises; late declarations ignored; a half-failed require cannot be retried; duplicate syntax rules raise AttributeError)."
  },
  {
   "property": "C42",
   "status": "proved",
   "theorems": [
    "C42_own_attributes_never_overridden",
    "C42_names_lead_to_their_extension",
    "C42_name_never_rebound",
    "C42_one_instance_per_object",
    "C42_instances_not_shared",
    "C42_one_global_instance",
    "C42_adding_again_no_effect",
    "C42_conflicting_name_refused",
    "C42_added_extension_reachable",
    "C42_invalid_extension_refused",
    "C42_predefined_extension_usable",
    "C42_built_in_only_respected",
    "C42_unknown_name_is_attribute_error",
    "C42_properties_are_predefined",
    "C42_refuted_refused_extension_keeps_schema",
    "C42_refuted_clash_with_method_not_reported",
    "C42_refuted_failed_setup_misreported",
    "C42_missing_class_reported",
    "C42_built_in_only_refuses_predefined",
    "C42_built_in_only_refuses_added",
    "C42_no_such_module_added",
    "C42_no_such_module_predefined",
    "C42_invalid_extension_exception"
   ],
   "note": "All three clauses, for every history of object creation, add_extension, attribute reads and registrations, any table of predefined extensions and any importable modules: own attributes win, a name once bound keeps its extension, conflicts are refused without changing names or objects, adding again has no effect, one instance per object and one global instance, added extensions are reachable, built_in_extensions_only is respected. Limits exhibited as refutations of stronger readings: a refused extension has already registered its schema; a NAME equal to a method is accepted but unreachable; set-up failures are misreported and not repeatable."
  },
  {
   "property": "C43",
   "status": "proved",
   "theorems": [
    "C43_normalize_idempotent",
    "C43_key_meaning",
    "C43_set_global",
    "C43_invalid_syntax",
    "C43_missing_section",
    "C43_shipped"
   ],
   "note": "All dicts over the 23 parameters; str.upper is a parameter (only idempotence of normalisation needs laws of it, satisfied by ASCII upper). KeyError does not undo the known keys: stated in the theorem."
  },
  {
   "property": "C44",
   "status": "partial",
   "theorems": [
    "C44_tag_is_first_object_partial",
    "C44_used_tag_refused",
    "C44_success_registers",
    "C44_refuted_failed_add"
   ],
   "note": "Proved: over all histories in which no add fails a tag stands for the object of the first call with it, used tags are refused without effect. Refuted: an add refused by validators or the server keeps its tag."
  },
  {
   "property": "C45",
   "status": "partial",
   "theorems": [
    "C45_all_results_in_order_partial",
    "C45_results_as_they_arrive",
    "C45_abandoned_yields_nothing",
    "C45_refuted_references_never_fetched",
    "C45_references_fail_in_order",
    "C45_refuted_tagged_search",
    "C45_refuted_finished_again",
    "C45_refuted_abandon",
    "C45_finished_block"
   ],
   "note": "Proved for untagged searches that do not fetch references: exactly one item per message in order, stops at the final message; streaming; abandoned searches yield nothing. Refuted: references/referrals are never fetched (connection unbound before reading), tagged search with two entries, iterating a finished search waits, abandon raises AttributeError."
  },
  {
   "property": "C46",
   "status": "proved",
   "theorems": [
    "C46_closing_paren",
    "C46_missing_paren",
    "C46_not_open",
    "C46_empty"
   ],
   "note": "Exact characterisation for all texts: least index closing all opened parentheses, ValueError iff there is none; other first character ValueError, empty text IndexError."
  },
  {
   "property": "C47",
   "status": "partial",
   "theorems": [
    "C47_get",
    "C47_exists",
    "C47_find_partial",
    "C47_refused",
    "C47_get_child",
    "C47_refuted_three_matches",
    "C47_refuted_rdn_not_escaped",
    "C47_refuted_reference_as_object"
   ],
   "note": "Proved for every RFC 4511 server: get, exists and find give the object, NoSearchResults or MultipleSearchResults for 0, 1, 2 matches. Refuted: three matches raise LDAPError, RDN is put into the filter unescaped, a reference can be returned as the object."
  },
  {
   "property": "C48",
   "status": "partial",
   "theorems": [
    "C48_add_or_mod_add",
    "C48_add_or_mod_replace_partial",
    "C48_add_if_not_exists",
    "C48_add_or_mod_add_succeeds",
    "C48_add_or_mod_replace_succeeds",
    "C48_add_if_not_exists_succeeds",
    "C48_replace_refuted_empty"
   ],
   "note": "Proved for every lawful server and every dict with values: the three helpers reach the requested state in an existing and an absent entry, return an object showing the entry, touch nothing else, and change nothing when they raise. Refuted for replacing with an empty list."
  },
  {
   "property": "C49",
   "status": "proved",
   "theorems": [
    "C49_recheck",
    "C49_recheck_first",
    "C49_compare",
    "C49_bind",
    "C49_forgotten_refuted",
    "C49_listed",
    "C49_refreshed"
   ],
   "note": "All outcomes of the recheck for every pair of lists and every server, and of a whole bind: a bind returns only if the list read after the success reply has the same members, or the check is not fatal and a warning was given. Finding proved separately: a detected downgrade leaves the connection bound and makes the new list the baseline, so a second check passes."
  },
  {
   "property": "C50",
   "status": "partial",
   "theorems": [
    "C50_object_class_partial",
    "C50_object_class_refused",
    "C50_attribute_type_partial",
    "C50_attribute_type_refused",
    "C50_attribute_type_unstated",
    "C50_rfc4512_object_class_partial",
    "C50_rfc4512_attribute_type_partial",
    "C50_refuted_two_extensions",
    "C50_refuted_keyword_case",
    "C50_refuted_empty_names",
    "C50_refuted_nameless_attribute_type",
    "C50_refuted_leading_zero",
    "C50_refuted_double_space"
   ],
   "note": "The accepted texts are characterised exactly (dialect laurelin of Spec_Parse) with their fields; RFC 4512 texts with upper case keywords, no empty list and at most one extension are read faithfully. Refuted for the full RFC grammar: a second X- extension, an empty name list, keywords in another letter case and nameless attribute types are refused; numbers with leading zeros are accepted; parse_qdescrs alone needs single spaces."
  },
  {
   "property": "C51",
   "status": "partial",
   "theorems": [
    "C51_stands_for_the_input_partial",
    "C51_injective_partial",
    "C51_refuted_backslash",
    "C51_refuted_nul",
    "C51_refuted_value_not_decoded"
   ],
   "note": "False of the code: backslash and NUL are not escaped, and parsed values are never decoded, so the server receives the escaped text (C51_refuted_*). Proved: for backslash-free input, RFC 4515 decoding of escape(s) gives s, and escape is injective."
  },
  {
   "property": "C52",
   "status": "partial",
   "theorems": [
    "C52_equality_rules_are_equivalences_partial",
    "C52_refuted_distinguishedName",
    "C52_refuted_dn_values_never_found",
    "C52_refuted_generalizedTime",
    "C52_dn_reflexive_if_types_had_match",
    "C52_dn_match_exactly",
    "C52_refuted_dn_symmetry_even_then",
    "C52_parse_dn",
    "C52_malformed_dn"
   ],
   "note": "Proved for every rule that compares prepared values; false for distinguishedNameMatch (never True) and generalizedTimeMatch (always True)."
  },
  {
   "property": "C53",
   "status": "partial",
   "theorems": [
    "C53_registration_partial",
    "C53_nothing_overwritten",
    "C53_refuted_atomic"
   ],
   "note": "Unambiguity and the exact success condition proved for all registries; failure is not atomic (C53_refuted_atomic)."
  },
  {
   "property": "C54",
   "status": "partial",
   "theorems": [
    "C54_modify_ldif_roundtrip_partial",
    "C54_refuted_delete_all",
    "C54_refuted_not_encoded"
   ],
   "note": "Proved: processing the LDIF of a transaction gives exactly its modifications, for plain DNs and values without colons. Refuted: delete-all raises TypeError; values are not encoded, so they can inject modifications."
  },
  {
   "property": "C55",
   "status": "proved",
   "theorems": [
    "C55_all_validators_must_accept",
    "C55_first_refusal_is_raised"
   ],
   "note": "For all lists of validators and outcomes. An AttributeError raised inside a validator counts as \"method missing\" (see C27_refuted_undefined_attribute)."
  },
  {
   "property": "C56",
   "status": "partial",
   "theorems": [
    "C56_fields",
    "C56_refuted_other_extension",
    "C56_refuted_not_decoded"
   ],
   "note": "Proved: every part of every URI comes out as written or with its default; critical extensions refused. Refuted: URI with another uncritical extension cannot be searched (AttributeError), percent-encoding is not undone."
  },
  {
   "property": "C57",
   "status": "proved",
   "theorems": [
    "C57_extended_responses",
    "C57_refuted_after_final"
   ],
   "note": "For all numbers of intermediate responses; iterating again after the final response waits (C57_refuted_after_final)."
  },
  {
   "property": "C58",
   "status": "partial",
   "theorems": [
    "C58_add_attrs",
    "C58_delete_attrs_partial",
    "C58_replace_attrs_partial",
    "C58_add_attrs_succeeds",
    "C58_delete_attrs_succeeds",
    "C58_replace_attrs_succeeds",
    "C58_refuted_empty_list"
   ],
   "note": "Proved for every lawful server, in both modes, with and without current, for dicts without empty lists (DELETE_ALL allowed). Refuted: the documented empty list deletes nothing with the default settings."
  },
  {
   "property": "C59",
   "status": "partial",
   "theorems": [
    "C59_refresh_partial",
    "C59_refresh_missing",
    "C59_refresh_missing_silent",
    "C59_refresh_missing_query",
    "C59_has_object_class",
    "C59_refresh_refuted_removed"
   ],
   "note": "Proved: refresh (attributes the entry has), refresh_missing, has_object_class. Refuted: attributes removed on the server survive refresh()."
  },
  {
   "property": "C60",
   "status": "proved",
   "theorems": [
    "C60_compare",
    "C60_delete",
    "C60_unbound",
    "C60_compare_answers",
    "C60_delete_succeeds"
   ],
   "note": "For every lawful server."
  },
  {
   "property": "C61",
   "status": "proved",
   "theorems": [
    "C61_add_users",
    "C61_add_hosts",
    "C61_delete_users",
    "C61_delete_hosts",
    "C61_replace_users",
    "C61_replace_hosts",
    "C61_bad_members",
    "C61_add_succeeds",
    "C61_replace_succeeds",
    "C61_delete_succeeds"
   ],
   "note": "For every lawful server and every list with documented meanings: add, replace and delete change exactly the named triples and groups, and succeed when the server is willing; malformed lists change nothing. Deletion is about entries that hold no two equal values, as RFC 4512 (2.2) demands of every entry."
  },
  {
   "property": "C62",
   "status": "partial",
   "theorems": [
    "C62_global_first",
    "C62_no_connection_section",
    "C62_connection_section_partial",
    "C62_refuted_extensions",
    "C62_file_type"
   ],
   "note": "Order, stopping, no-connection and file type proved for all configurations and environments. REFUTED for the extensions section: LDAP.activate_extension does not exist, so any configuration naming an extension (as in the documented example) raises AttributeError after the global section was applied."
  },
  {
   "property": "C63",
   "status": "partial",
   "theorems": [
    "C63_both_binds",
    "C63_success",
    "C63_credentials",
    "C63_objects",
    "C63_validators",
    "C63_bad_entries",
    "C63_live_partial",
    "C63_object_live_partial",
    "C63_refuted_second_use",
    "C63_refuted_filter_syntax",
    "C63_truth",
    "C63_bad_validator",
    "C63_tag_in_use",
    "C63_bad_scope",
    "C63_entries_in_order",
    "C63_refuted_entry_twice",
    "C63_tag_clash"
   ],
   "note": "Success, credential safety, refusals, objects proved for every configuration and every environment; liveness partial (explicit base_dn, no validators; the own liveness of the constructor, C64_live is general). REFUTED: a second use of the same dict yields a connection without StartTLS or bind (the keys are popped from the caller dict); default_filter_syntax, documented, can never be used; a schema/validator entry cannot be used a second time (C63_refuted_entry_twice)."
  },
  {
   "property": "C64",
   "status": "partial",
   "theorems": [
    "C64_settings",
    "C64_global_reaches_connection",
    "C64_unknown_keyword",
    "C64_transport_partial",
    "C64_refuted_shared_transport",
    "C64_shared_socket",
    "C64_validators",
    "C64_bad_validator",
    "C64_sasl_mech",
    "C64_live"
   ],
   "note": "Settings, global reach and keyword refusal proved for all 22 parameters. Transport settings proved when the socket is not shared; REFUTED for shared sockets: the registry is keyed by URI only, so ssl_verify=True may run on a socket opened without verification."
  },
  {
   "property": "C65",
   "status": "proved",
   "theorems": [
    "C65_base_dn",
    "C65_undetermined"
   ],
   "note": "For every argument dict, default and root DSE; undetermined case raises LDAPError."
  },
  {
   "property": "C66",
   "status": "partial",
   "theorems": [
    "C66_text_partial",
    "C66_text_outcome",
    "C66_rfc_exact_partial",
    "C66_rfc_newline_partial",
    "C66_rfc_accepted_partial",
    "C66_bytes",
    "C66_escaped_regex",
    "C66_refuted_integer_zero",
    "C66_refuted_delivery_method",
    "C66_refuted_telephone_short",
    "C66_refuted_telephone_unprintable",
    "C66_refuted_teletex",
    "C66_refuted_dn_refused",
    "C66_refuted_dn_accepted",
    "C66_refuted_newline",
    "C66_refuted_oid",
    "C66_refuted_substring",
    "C66_refuted_name_and_uid"
   ],
   "note": "Exact characterisation of what each of 25 rules accepts (text and bytes), for every set order; 10 rules exact w.r.t. the RFC, 6 up to a final newline, the others with the stated differences. The full claim is refuted: Integer 0, teletex/videotex, short phone numbers, teletex values, empty DN/value and leading = are refused; final newline, leading zeros, unescaped trailing space, escaped NUL, junk after a substring assertion or name are accepted."
  },
  {
   "property": "C67",
   "status": "partial",
   "theorems": [
    "C67_enhanced_guide_partial",
    "C67_guide_partial",
    "C67_enhanced_guide_rfc",
    "C67_guide_rfc_partial",
    "C67_outcome",
    "C67_any_outcome",
    "C67_refuted_guide_no_class",
    "C67_refuted_exception",
    "C67_refuted_empty",
    "C67_refuted_junk",
    "C67_octets"
   ],
   "note": "Every RFC value with an object class is accepted; what is accepted is characterised exactly; outcomes are listed. Refuted: a Guide without object class is refused, empty criteria and anything after a term are accepted, unmatched parentheses raise ValueError."
  },
  {
   "property": "C68",
   "status": "proved",
   "theorems": [
    "C68_refused",
    "C68_bind",
    "C68_mechanism",
    "C68_bound",
    "C68_unfinished",
    "C68_more"
   ],
   "note": "Complete description of every terminating bind against an arbitrary server and SASL library (both functions of the history), any number of challenges; control keyword handling and puresasl enter by outcome; wrapping of traffic not modelled."
  },
  {
   "property": "C69",
   "status": "partial",
   "theorems": [
    "C69_exact_partial",
    "C69_rfc_partial",
    "C69_bytes",
    "C69_refuted_content_rule_may",
    "C69_refuted_dit_obsolete",
    "C69_refuted_two_extensions",
    "C69_refuted_extension_spaces",
    "C69_refuted_extension_case",
    "C69_refuted_empty_list",
    "C69_refuted_keyword_case",
    "C69_refuted_matching_rule_syntax",
    "C69_refuted_final_newline",
    "C69_refuted_leading_zero",
    "C69_refuted"
   ],
   "note": "The accepted texts are characterised exactly for all eight syntaxes and every text; descriptions of RFC 4512 with upper case keywords, at most one extension after single spaces, no empty list, no OBSOLETE in DIT rules and no MAY in content rules are accepted. The full claim is refuted for every one of the syntaxes, in both directions."
  },
  {
   "property": "C70",
   "status": "partial",
   "theorems": [
    "C70_request",
    "C70_refused_sends_nothing",
    "C70_accepted_iff",
    "C70_unique",
    "C70_unbound",
    "C70_unreadable_filter",
    "C70_class_attribute_unsupported",
    "C70_unknown_keyword_partial",
    "C70_printed_filter",
    "C70_default_search",
    "C70_get",
    "C70_refuted_keyword_accepted_then_unusable",
    "C70_empty_attribute"
   ],
   "note": "Complete for requests, defaults, refusals and errors; refuted for four keywords (dn, self, ldap_conn, attrs_dict) that are accepted and sent, after which every entry found raises TypeError. What the simple and unified syntaxes mean is C15/C16."
  },
  {
   "property": "C71",
   "status": "partial",
   "theorems": [
    "C71_inherits",
    "C71_inherits_at_any_depth",
    "C71_child_dn",
    "C71_added_child_dn",
    "C71_obj_iff",
    "C71_unconnected",
    "C71_bare_value",
    "C71_search_request",
    "C71_get_child_request",
    "C71_find_no_children",
    "C71_find_bad_scope",
    "C71_find_child",
    "C71_find_below_partial",
    "C71_refuted_find_below",
    "C71_added_child_iff"
   ],
   "note": "Inheritance at any depth, DNs, requests and errors in full; that find in a subtree scope looks for the object with that RDN is proved for RDNs that are one attribute and a valid filter value, and refuted for values with stars, DN escapes and multi-valued RDNs. Results themselves are C45."
  },
  {
   "property": "C72",
   "status": "partial",
   "theorems": [
    "C72_request_partial",
    "C72_bad_value",
    "C72_bad_type",
    "C72_every_result_once_partial",
    "C72_no_error_partial",
    "C72_finishes_partial",
    "C72_server_error",
    "C72_server_error_stops",
    "C72_leftover",
    "C72_refuted_unreadable_cookie",
    "C72_refuted_ignored_control",
    "C72_nonvacuous_library",
    "C72_nonvacuous_server",
    "C72_refuted_referral",
    "C72_bad_tuple",
    "C72_cookie_exact"
   ],
   "note": "Proved for all conforming servers, sizes and numbers of pages, given that the ASN.1 library decodes what was encoded and cookies survive the way to text and back (shown for BER and ISO 8859-1); refuted otherwise: a cookie that cannot be read ends the loop silently, and a server that ignores the control gives an AttributeError."
  },
  {
   "property": "C73",
   "status": "partial",
   "theorems": [
    "C73_one_syntax_instance",
    "C73_one_matching_instance",
    "C73_syntax_by_oid",
    "C73_matching_as_asked",
    "C73_name_and_oid_partial",
    "C73_found_as_registered_partial",
    "C73_duplicates_refused",
    "C73_duplicate_syntax_refused",
    "C73_refuted_name_taken_over",
    "C73_refuted_second_try",
    "C73_refuted_wrong_error"
   ],
   "note": "One object per OID for all histories; by name as well, and found exactly as registered, for all histories in which every registration of a matching rule succeeded and only registered classes are instantiated by hand; refuted otherwise: a refused registration leaves its OID registered, and asking for it takes over the name of the other rule, or fails the first time and succeeds the second; a duplicate syntax rule raises AttributeError."
  },
  {
   "property": "C74",
   "status": "partial",
   "theorems": [
    "C74_verified",
    "C74_start_tls",
    "C74_refused",
    "C74_once",
    "C74_without_contexts",
    "C74_everything_protected",
    "C74_verified_from_then_on",
    "C74_failed_handshake_partial",
    "C74_refuted_goes_on_after_wrong_host",
    "C74_refuted_clear_text",
    "C74_refuted_intermediate",
    "C74_other_requests"
   ],
   "note": "Verification, settings, order, once only, and protection of everything sent after a successful start_tls are proved for every history and every TLS library (that CERT_REQUIRED checks the chain is a hypothesis on it). Refuted: after a failed host name check the connection stays usable with that peer; an unreadable CA file leaves it in clear text after the server agreed to TLS; an intermediate response counts as agreement."
  },
  {
   "property": "C75",
   "status": "partial",
   "theorems": [
    "C75_one_request",
    "C75_or_nothing_partial",
    "C75_accepted_iff",
    "C75_who_am_i_twice",
    "C75_who_am_i_partial",
    "C75_refuted_sent_all_the_same",
    "C75_refuted_intermediate",
    "C75_wants_success",
    "C75_waits_only_for_an_answer"
   ],
   "note": "Requests, refusals and the answer to who_am_i proved for all arguments; refuted: an unknown keyword is noticed after the request was sent; who_am_i takes an intermediate response for the answer."
  },
  {
   "property": "C76",
   "status": "partial",
   "theorems": [
    "C76_request_partial",
    "C76_standard_filters_partial",
    "C76_one_filter_partial",
    "C76_netgroups_only_partial",
    "C76_escaped_input",
    "C76_accepted_partial",
    "C76_untagged",
    "C76_get",
    "C76_refuted_other_entries",
    "C76_refuted_simple_syntax",
    "C76_refuted_logic_not_accepted"
   ],
   "note": "The request and, for the standard syntax and for all text that closes no parenthesis it has not opened (escaped input in particular), the conjunction are proved for every text; accepted for every sequence of standard filters. Refuted: text closing the parenthesis opened for it returns other entries; filters with AND, OR, NOT are refused, and all filters under the simple syntax."
  },
  {
   "property": "C77",
   "status": "partial",
   "theorems": [
    "C77_value_lists",
    "C77_own_lists",
    "C77_never_the_callers_list",
    "C77_write_list",
    "C77_write_other",
    "C77_set",
    "C77_delete",
    "C77_clear",
    "C77_update",
    "C77_update_refused_partial",
    "C77_update_others",
    "C77_update_refused_half_done_refuted",
    "C77_new",
    "C77_setdefault_present",
    "C77_setdefault_absent",
    "C77_setdefault_returns_own_list_refuted",
    "C77_get_attr",
    "C77_contains",
    "C77_deepcopy",
    "C77_update_from_partial",
    "C77_new_from_partial",
    "C77_one_spelling_tidy"
   ],
   "note": "Ownership, non-aliasing and the effect of every operation proved for all histories; copies of whole objects for objects that list what they look up (all objects, if names are always spelled in one way). Refuted: setdefault on an absent attribute returns a list that is not the stored one, so appending to it is lost, for every object and history; update with DELETE_ALL raises TypeError after writing the entries before it."
  },
  {
   "property": "C78",
   "status": "partial",
   "theorems": [
    "C78_reflexive",
    "C78_symmetric",
    "C78_transitive",
    "C78_ne",
    "C78_equal_iff_partial",
    "C78_copy_equal_partial",
    "C78_dn",
    "C78_spelling_refuted",
    "C78_equal_but_different_refuted"
   ],
   "note": "Equivalence relation for all histories; equal iff same DN and values for objects listing what they look up and spelling names alike. Refuted otherwise: cn and CN with the same values are unequal; objects with stale spellings compare equal and give different values for the same name."
  },
  {
   "property": "C79",
   "status": "partial",
   "theorems": [
    "C79_simple_bind",
    "C79_sasl_bind",
    "C79_unbind",
    "C79_abandon",
    "C79_delete",
    "C79_mod_dn",
    "C79_extended",
    "C79_modify",
    "C79_search",
    "C79_compare_partial",
    "C79_add_partial",
    "C79_refuted_compare_bytes",
    "C79_refuted_add_empty",
    "C79_unauthenticated_bind_sent",
    "C79_filter_wellformed",
    "C79_search_sent",
    "C79_refuted_compare_bytes_literal"
   ],
   "note": "Proved exactly (sent if and only if encodable) for bind, SASL bind, unbind, abandon, search, delete, mod_dn, modify and extended requests with any controls; compare for text arguments and add with at least one value per attribute. Refuted: bytes given to compare are sent as their Python repr, for every bytes value; add accepts and sends attributes without values, which are no RFC 4511 messages."
  },
  {
   "property": "C80",
   "status": "proved",
   "theorems": [
    "C80_unambiguous",
    "C80_stream",
    "C80_encoding_exists",
    "C80_framing",
    "C80_tables"
   ],
   "note": "Unique decoding of messages and streams for all encodings; existence of encodings up to lengths of 256^126; discharges the codec hypothesis of C20 for any encoder and decoder of RFC 4511 messages."
  },
  {
   "property": "C81",
   "status": "proved",
   "theorems": [
    "C81_readable",
    "C81_result",
    "C81_add",
    "C81_compare",
    "C81_sasl",
    "C81_entry",
    "C81_value_octets",
    "C81_done_and_references",
    "C81_who_am_i",
    "C81_extended",
    "C81_decoder_exists"
   ],
   "note": "For every message and every encoding. Entries with distinct attribute types and UTF-8 names; control OIDs in ASCII (as the RFC has them); what a control handler sees of an absent value is a parameter."
  },
  {
   "property": "C82",
   "status": "proved",
   "theorems": [
    "C82_loads",
    "C82_class_names",
    "C82_type_names",
    "C82_class_lists",
    "C82_type_features",
    "C82_mentions_resolve",
    "C82_rule_oids",
    "C82_stays"
   ],
   "note": "For every str.lower and str.isdigit that agree with ASCII, every set of reserved keywords, any later history. Rows (Spec_StdTable) written out by hand from the specification texts and checked against the loaded schema by computation inside the proofs."
  },
  {
   "property": "C83",
   "status": "partial",
   "theorems": [
    "C83_objects",
    "C83_misfits",
    "C83_modifications",
    "C83_refuted_spelling",
    "C83_refuted_names",
    "C83_refuted_synonyms",
    "C83_refuted_extensible"
   ],
   "note": "Exact for all objects (distinct names, any memo history), all modifications. Refuted: names are case-sensitive (x500UniqueIdentifier and dITContentRules refused under their registered names), RFC synonyms and operational attributes are refused, extensibleObject allows nothing. Values are text."
  },
  {
   "property": "C84",
   "status": "partial",
   "theorems": [
    "C84_found",
    "C84_literal",
    "C84_unregistered",
    "C84_not_found",
    "C84_refuted_no_rule",
    "C84_refuted_dn",
    "C84_refuted_times",
    "C84_refuted_dn_modifications"
   ],
   "note": "Exact for all attributes whose rule compares prepared values or literally, and unregistered ones. Refuted: DN values are never found (delete_attrs sends nothing, add_attrs sends everything again), every time is found at position 0, attributes without equality rule raise LDAPSchemaError."
  },
  {
   "property": "C85",
   "status": "partial",
   "theorems": [
    "C85_any_schema",
    "C85_shipped",
    "C85_unregistered",
    "C85_refuted_validation_agrees"
   ],
   "note": "For every schema without cycles and for the shipped classes, any memo history. Refuted: validation does not agree with allowed_attr for extensibleObject."
  },
  {
   "property": "C86",
   "status": "proved",
   "theorems": [
    "C86_never_reaches_the_server",
    "C86_call",
    "C86_raises",
    "C86_returns_only_local"
   ],
   "note": "For every method, argument and history of a session with any number of objects. The error is RuntimeError for most methods but AttributeError for add_attrs, delete_attrs, validate and validate_modify, and LDAPError for obj with a tag (finding); the table is in Spec_Life."
  },
  {
   "property": "C87",
   "status": "partial",
   "theorems": [
    "C87_delete",
    "C87_final",
    "C87_refuted_obj"
   ],
   "note": "Deletion, refusal and every later history proved. Refuted: obj() on a deleted object returns a child named rdn,None."
  },
  {
   "property": "C88",
   "status": "proved",
   "theorems": [
    "C88_call",
    "C88_exact_request",
    "C88_exact_child_request",
    "C88_exact_add_request",
    "C88_exact_rename_request",
    "C88_exact_move_request",
    "C88_exact_modify_request",
    "C88_set_local",
    "C88_del_local",
    "C88_validate",
    "C88_find_one",
    "C88_session_stays_inside",
    "C88_nothing_after_unbind",
    "C88_find_elsewhere"
   ],
   "note": "For every method, argument, server and history. The server is assumed to answer reads and searches with entries from where it was asked (session theorem only). Controls left out; every method of LDAPObject and the netgroup methods included."
  },
  {
   "property": "C89",
   "status": "partial",
   "theorems": [
    "C89_history_partial",
    "C89_reads_partial",
    "C89_has_class_partial",
    "C89_fetched",
    "C89_made",
    "C89_added",
    "C89_renamed_partial",
    "C89_compare",
    "C89_refuted_modify_add",
    "C89_refuted_strict_add",
    "C89_refuted_rename",
    "C89_refuted_error_after_change",
    "C89_never_false_partial",
    "C89_shown_is_there_partial",
    "C89_class_is_there_partial",
    "C89_coherent_never_false"
   ],
   "note": "Proved for every history in which the object is used gently (Spec_Coherent.gentle: attributes changed through modify are loaded, no removal of unloaded attributes, no renames, refresh_all or local assignment) and nothing else changes the entry; renames and moves between plain RDNs keep the object in step if the attribute of the new RDN is loaded or absent (C89_renamed_partial). Refuted: modify with ADD of an unloaded attribute, add_attrs under strict_modify, rename with an unloaded RDN attribute; replace_attrs with DELETE_ALL of an unloaded attribute raises KeyError after the change. Where that fails a weaker statement is proved in both modes: after any history of additions, replacements and removals the object shows no value that is not in its entry (C89_never_false_partial)."
  },
  {
   "property": "C90",
   "status": "partial",
   "theorems": [
    "C90_changes_partial",
    "C90_wrong_class",
    "C90_bad_members",
    "C90_refuted_strict_delete",
    "C90_adds",
    "C90_deletes_partial"
   ],
   "note": "For every server, object, member list; delete for entries holding no two equal values (RFC 4512, 2.2). Refuted for delete under strict_modify: with the members not loaded it returns without having deleted anything. Adding is proved in both modes, and for objects that hold only some of the values (C90_adds)."
  },
  {
   "property": "C91",
   "status": "proved",
   "theorems": [
    "C91_search_results",
    "C91_operation",
    "C91_decoder_exists"
   ],
   "note": "For a reader of its own on a fresh connection, and searches without tag that neither fetch references nor follow referrals (these: C45, C46, C48); the decoder is assumed to take apart the messages sent (one exists: C91_decoder_exists). Composes C20, C45, C80 and C81."
  },
  {
   "property": "C92",
   "status": "proved",
   "theorems": [
    "C92_dc",
    "C92_dc_parent",
    "C92_domain_undoes_dc",
    "C92_dc_undoes_domain",
    "C92_dc_injective",
    "C92_domain_fails",
    "C92_domain_of_any_dn",
    "C92_scope_word",
    "C92_scope_word_refused",
    "C92_scope_constant",
    "C92_scope_round_trip",
    "C92_filter_syntax",
    "C92_filter_syntax_repr",
    "C92_mod_string",
    "C92_mod_string_refused",
    "C92_op_to_string",
    "C92_op_to_string_refused",
    "C92_scope_repr",
    "C92_deref_repr",
    "C92_mod_repr",
    "C92_increment_repr",
    "C92_enumerated_repr",
    "C92_no_value_repr",
    "C92_kinds_not_told_apart",
    "C92_numbers",
    "C92_filter_syntax_refused",
    "C92_unnamed_repr"
   ],
   "note": "Arguments are texts (for the constants: enumerated values with a number). str.upper, str.lower and repr of text are arbitrary."
  },
  {
   "property": "C93",
   "status": "proved",
   "theorems": [
    "C93_session",
    "C93_ids",
    "C93_sessions_exist"
   ],
   "note": "For a bound connection without SASL layer; searches without tag that neither fetch references nor follow referrals and are read to the end; adding with a value for every attribute (without: C79_refuted_add_empty); the server sends nothing but answers. C93_sessions_exist: such sessions take place for all calls and servers within the sizes and ranges of the RFC."
  },
  {
   "property": "C94",
   "status": "partial",
   "theorems": [
    "C94_as_without_a_layer",
    "C94_whole_buffers",
    "C94_nothing_forged_or_replayed",
    "C94_in_order",
    "C94_sent",
    "C94_refuted_long_buffers"
   ],
   "note": "Everything but the last sentence is proved for every layer and every history. The last sentence is refuted: buffers are not put together from several reads, so one longer than the 4096 octets a read returns is never opened, nor one that is cut (C94_refuted_long_buffers). That a layer protects integrity (accepts only the next buffer of the server) is the assumption on the SASL library; message distinctness stands for positions in the stream."
  },
  {
   "property": "C95",
   "status": "proved",
   "theorems": [
    "C95_session",
    "C95_as_in_clear_text"
   ],
   "note": "Composes C93 and C94. As in C93: searches without tag that neither fetch references nor follow referrals and are read to the end; adding with a value for every attribute; the server sends nothing but answers. That a buffer arrives in one read is part of the property as stated (without: C94_refuted_long_buffers)."
  },
  {
   "property": "C96",
   "status": "partial",
   "theorems": [
    "C96_connected",
    "C96_opens",
    "C96_refused",
    "C96_handshake_fails",
    "C96_no_unix_sockets",
    "C96_ldaps_protected",
    "C96_waits_partial",
    "C96_refuted_timeout_stays",
    "C96_own_socket",
    "C96_all_verified_partial",
    "C96_refuted_several_servers",
    "C96_refuted_shared_socket"
   ],
   "note": "Refuted parts: the time allowed for connecting over TCP stays as the limit of every later wait (C96_refuted_timeout_stays); two servers that match the third pattern are not found (C96_refuted_several_servers); a connection that asks for verification shares a socket opened without (C96_refuted_shared_socket; if all ask for it: C96_all_verified_partial). All else is proved. That the ssl module checks chains is the hypothesis honest; sockets leave the table of shared ones as in C21."
  },
  {
   "property": "C97",
   "status": "proved",
   "theorems": [
    "C97_read_until_notice",
    "C97_recv_one",
    "C97_kept_for_later",
    "C97_abandoned",
    "C97_text"
   ],
   "note": "The message boundaries are those of C20 (codec_ok_on). How much of what came after the notice is lost is not part of the property: C20_refuted_unsolicited_drops_bytes. The text of a result code and of a missing value are parameters (they differ between versions of pyasn1)."
  },
  {
   "property": "C98",
   "status": "proved",
   "theorems": [
    "C98_responses",
    "C98_unexpected",
    "C98_recv_response",
    "C98_who_am_i",
    "C98_notice"
   ],
   "note": "As in C91: one reader, a decoder that frames the messages (exists: C91_decoder_exists; with a notice: C98_nonvacuous_notice), control OIDs in ASCII as RFC 4511 has them. The request is that of C79. That who_am_i takes an intermediate response for the answer is in C75."
  },
  {
   "property": "C99",
   "status": "proved",
   "theorems": [
    "C99_exchange",
    "C99_possible",
    "C99_one_outcome",
    "C99_in_turn",
    "C99_bound",
    "C99_success",
    "C99_refused",
    "C99_ids",
    "C99_then_operations"
   ],
   "note": "The rounds of sasl_bind on real messages: requests of Model_Wire, reader of Model_Net, answers of Model_Reply; any SASL client and any server of one answer per request, any encoding and chunking. The checks of mechanisms before and after are C49 and C68; wrap and unwrap are the identity until a layer is negotiated (layers: C94, C95)."
  }
 ]
}