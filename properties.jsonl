{"id": "C01", "title": "Attribute dictionaries behave as a map keyed by case-folded name", "statement": "After any sequence of d[k]=v, del d[k], setdefault, update, clear, and pop-free reads, d[k], d.get(k), k in d and setdefault return what a plain map keyed by k.lower() would return: the value of the latest write under any casing of k, KeyError/default when there was none or it was deleted since, and a write to one name never disturbs another name.", "quantifier": "all finite operation sequences over arbitrary key strings and values, and any lower() function", "why_tests_cant": "unbounded histories and arbitrary Unicode keys", "anchors": ["laurelin/ldap/utils.py:CaseIgnoreDict", "laurelin/ldap/attrsdict.py:AttrsDict"]}
{"id": "C02", "title": "Enumerating an attribute dictionary lists every attribute exactly once, with its current values", "statement": "Iteration, items(), len(), iterattrs() and deepcopy() of a case-insensitive dict show exactly one entry per distinct case-insensitive name, carrying the value d[name] returns.", "quantifier": "all operation sequences", "why_tests_cant": "the entry set after every history, including re-spelling of a key, must be covered", "anchors": ["laurelin/ldap/utils.py:CaseIgnoreDict.__setitem__", "laurelin/ldap/utils.py:CaseIgnoreDict.__delitem__", "laurelin/ldap/attrsdict.py:AttrsDict.iterattrs", "laurelin/ldap/attrsdict.py:AttrsDict.deepcopy"]}
{"id": "C03", "title": "AttrsDict admits only str names and lists of str/bytes, and bulk updates are all-or-nothing", "statement": "Every write of a non-string name or a value that is not a list of str/bytes (or DELETE_ALL) raises TypeError and leaves the dict unchanged; update() with a plain dict containing any bad entry changes nothing; 'attr in d' is true exactly when d[attr] is a non-empty list.", "quantifier": "all Python values given as names/values, all dict states", "why_tests_cant": "arbitrary dynamic values and states", "anchors": ["laurelin/ldap/attrsdict.py:AttrsDict.validate", "laurelin/ldap/attrsdict.py:AttrsDict.__setitem__", "laurelin/ldap/attrsdict.py:AttrsDict.update", "laurelin/ldap/attrsdict.py:AttrsDict.setdefault"]}
{"id": "C04", "title": "Value lookup uses the attribute's equality rule and finds the first matching value", "statement": "For a known attribute type, index(values, v) returns i exactly when values[i] matches v under the type's equality rule and no earlier value does; for a valid assertion it raises ValueError exactly when nothing matches, and an invalid assertion raises the validation error. AttrValueList's in/count/index/remove agree with each other, and remove deletes exactly that one element.", "quantifier": "all attribute value lists, assertion values and equality rules", "why_tests_cant": "lists and rules are unbounded", "anchors": ["laurelin/ldap/attributetype.py:AttributeType.index", "laurelin/ldap/attributetype.py:DefaultAttributeType.index", "laurelin/ldap/attrvaluelist.py:AttrValueList", "laurelin/ldap/rules.py:EqualityMatchingRule"]}
{"id": "C05", "title": "Adding attributes sends exactly the values the object does not already have", "statement": "AddModlist(cur, new) produces ADD modifications whose values are exactly the values of new (in order, per attribute in order) that have no match in cur; no value already present is ever sent, none missing is dropped, and an attribute with nothing new produces no modification.", "quantifier": "all current/new attribute dicts and matching rules", "why_tests_cant": "all dict contents and rules", "anchors": ["laurelin/ldap/modify.py:AddModlist", "laurelin/ldap/modify.py:Modlist", "laurelin/ldap/modify.py:Mod"]}
{"id": "C06", "title": "Deleting attributes sends exactly the values the object has", "statement": "DeleteModlist(cur, del) produces DELETE modifications whose values are exactly the requested values that match a current value, keeps delete-all requests for present attributes, and drops everything concerning absent attributes.", "quantifier": "all current/delete attribute dicts and matching rules", "why_tests_cant": "all dict contents and rules", "anchors": ["laurelin/ldap/modify.py:DeleteModlist"]}
{"id": "C07", "title": "modify sends exactly the requested changes, in order, as one request, or nothing", "statement": "LDAP.modify sends at most one ModifyRequest, with one change per Mod in list order, except that empty-list REPLACE/DELETE mods are dropped (default), warned about, or rejected with LDAPError before sending, as configured; DELETE_ALL is sent as an empty value set; an empty or entirely skipped modlist sends nothing.", "quantifier": "all modlists and all combinations of the two flags", "why_tests_cant": "all modlists; interplay of flags and position", "anchors": ["laurelin/ldap/base.py:LDAP.modify"]}
{"id": "C08", "title": "After a successful modify the local object mirrors the server entry", "statement": "If the local attributes equal the server's entry before LDAPObject.modify and the server applies the request under RFC 4511 semantics, then afterwards local attributes equal the server's entry.", "quantifier": "all entries, all modlists, all equality rules", "why_tests_cant": "unbounded modlists and value sets", "anchors": ["laurelin/ldap/ldapobject.py:LDAPObject.modify", "laurelin/ldap/ldapobject.py:LDAPObject._local_modify", "laurelin/ldap/base.py:LDAP.modify"]}
{"id": "C09", "title": "Add-then-delete and idempotence of the smart modification helpers", "statement": "Applying add_attrs twice sends nothing the second time; delete_attrs twice sends nothing the second time; replace is idempotent on the local copy.", "quantifier": "all objects and attribute dicts", "why_tests_cant": "all states", "anchors": ["laurelin/ldap/base.py:LDAP.add_attrs", "laurelin/ldap/base.py:LDAP.delete_attrs", "laurelin/ldap/ldapobject.py:LDAPObject.add_attrs", "laurelin/ldap/ldapobject.py:LDAPObject.delete_attrs"]}
{"id": "C10", "title": "Transactions send nothing before commit and exactly the accumulated changes on commit", "statement": "Within 'with obj.mod_transaction() as t', no request is sent until t.commit(); commit sends the concatenation of all modlists since the previous commit, in order, through the original object; leaving the block without commit (normally or by exception) sends nothing and leaves the original object untouched; Abandon is swallowed while any other exception propagates.", "quantifier": "all sequences of transaction operations, commits and exit modes", "why_tests_cant": "all histories and exit points", "anchors": ["laurelin/ldap/ldapobject.py:ModTransactionObject", "laurelin/ldap/ldapobject.py:LDAPObject.mod_transaction"]}
{"id": "C11", "title": "Checkpoints nest: abandoning one restores the state at its start", "statement": "A checkpoint's changes join the enclosing transaction only if committed; an abandoned or failing checkpoint leaves the enclosing transaction's pending changes and attributes exactly as they were.", "quantifier": "all nesting depths and operation sequences", "why_tests_cant": "unbounded nesting and histories", "anchors": ["laurelin/ldap/ldapobject.py:ModTransactionObject.mod_transaction", "laurelin/ldap/ldapobject.py:ModTransactionObject.commit"]}
{"id": "C12", "title": "A transaction object refuses every operation that is not an attribute modification", "statement": "add_child, delete, delete_child, mod_dn on a transaction object and modify with control keywords raise without sending anything or changing the pending changes.", "quantifier": "all transaction states", "why_tests_cant": "all states", "anchors": ["laurelin/ldap/ldapobject.py:ModTransactionObject"]}
{"id": "C13", "title": "Escaped user input cannot change the structure of a filter", "statement": "escape(s) contains none of the characters ()&|!=<>~*/; when it is put as the value of (attr=VALUE), or of several such tests combined with & or |, then whatever s is, the filter is read as exactly those equality tests or not at all, and it is read whenever s has no backslash and no NUL.", "quantifier": "all strings", "why_tests_cant": "all strings, including escape look-alikes", "anchors": ["laurelin/ldap/filter.py:escape", "laurelin/ldap/filter.py:escape_map"]}
{"id": "C14", "title": "Printing and re-parsing a filter gives back the same filter", "statement": "For every filter object the library can build, the RFC 4515 string produced from it parses back to the same filter.", "quantifier": "all filter trees of any depth", "why_tests_cant": "unbounded recursive structure", "anchors": ["laurelin/ldap/filter.py:rfc4511_filter_to_rfc4515_string", "laurelin/ldap/filter.py:parse_standard_filter"]}
{"id": "C15", "title": "The unified syntax accepts every standard filter with the same meaning", "statement": "If the standard RFC 4515 parser accepts a string as filter F then the default unified parser accepts it as the same F.", "quantifier": "all strings", "why_tests_cant": "all strings", "anchors": ["laurelin/ldap/filter.py:parse", "laurelin/ldap/filter.py:parse_simple_filter", "laurelin/ldap/filter.py:_unified_filter_grammar"]}
{"id": "C16", "title": "Simple filter operators have the documented precedence", "statement": "In the simple syntax NOT binds tighter than AND, which binds tighter than OR; 'a AND b AND c' is one AND of three, parentheses override, and keyword spacing does not change the result.", "quantifier": "all expressions of any depth", "why_tests_cant": "unbounded nesting", "anchors": ["laurelin/ldap/filter.py:SimpleFilterHandler", "laurelin/ldap/filter.py:parse_simple_filter"]}
{"id": "C17", "title": "Every RFC 4512 attribute description is accepted in filters", "statement": "Attribute names, numeric OIDs and options per RFC 4512 are accepted wherever a filter names an attribute or matching rule.", "quantifier": "all attribute descriptions", "why_tests_cant": "infinite language", "anchors": ["laurelin/ldap/filter.py:_rfc4515_ava_grammar"]}
{"id": "C18", "title": "Space and character preparation is idempotent and identifies exactly the intended values", "statement": "Insignificant space handling is idempotent, yields a string with single leading/trailing space and exactly two spaces between words, and two values prepare equal exactly when their words are equal; numericString/telephone preparation removes exactly spaces (and hyphens).", "quantifier": "all strings", "why_tests_cant": "all strings", "anchors": ["laurelin/ldap/rfc4518.py:Insignificant", "laurelin/ldap/rfc4518.py:Map"]}
{"id": "C19", "title": "String preparation rejects a value iff it contains a prohibited character anywhere", "statement": "The Prohibit step raises for every string containing a character in the prohibited tables and accepts all others.", "quantifier": "all strings", "why_tests_cant": "all positions in all strings", "anchors": ["laurelin/ldap/rfc4518.py:Prohibit"]}
{"id": "C20", "title": "Each reply is delivered to the operation that asked for it, once and in order", "statement": "With several operations outstanding on one connection, reading the replies of message ID m yields exactly the messages the server sent with that ID, in order, without loss or duplication, however the byte stream is chunked and however reads of different IDs interleave.", "quantifier": "all byte-stream chunkings, all message sequences, all interleavings of reads", "why_tests_cant": "all schedules", "anchors": ["laurelin/ldap/net.py:LDAPSocket.recv_messages", "laurelin/ldap/net.py:LDAPSocket.recv_one"]}
{"id": "C21", "title": "Message IDs are never reused on a connection", "statement": "The IDs of successive requests on a socket are 1, 2, 3, ...; every sent message has an ID different from all earlier ones.", "quantifier": "all operation histories", "why_tests_cant": "unbounded histories", "anchors": ["laurelin/ldap/net.py:LDAPSocket.send_message", "laurelin/ldap/net.py:LDAPSocket._next_message_id"]}
{"id": "C22", "title": "Bind state machine: at most one successful bind, nothing after unbind", "statement": "simple_bind/sasl_bind raise ConnectionAlreadyBound on a bound connection and ConnectionUnbound on an unbound one; the connection is marked bound only after the server reports success; after unbind every operation raises ConnectionUnbound and sends nothing.", "quantifier": "all histories of bind/unbind/operation calls and server answers", "why_tests_cant": "all histories", "anchors": ["laurelin/ldap/base.py:LDAP.simple_bind", "laurelin/ldap/base.py:LDAP.sasl_bind", "laurelin/ldap/base.py:LDAP.unbind"]}
{"id": "C23", "title": "A shared socket is closed exactly when its last user unbinds", "statement": "Connections created with reuse_connection share one socket per URI; the socket is closed when and only when every LDAP object using it has unbound (or one forces it), and a closed socket is never handed to a new connection.", "quantifier": "all interleavings of connect/unbind across any number of LDAP objects", "why_tests_cant": "all histories", "anchors": ["laurelin/ldap/base.py:LDAP.__init__", "laurelin/ldap/base.py:LDAP.unbind", "laurelin/ldap/net.py:LDAPSocket"]}
{"id": "C24", "title": "Control criticality is honoured and no keyword is silently dropped", "statement": "A control given by keyword is attached with the criticality asked for (critical/optional/default); a critical control the server does not list raises LDAPSupportError, a non-critical one is sent whether or not the server lists it, a control used on the wrong method raises LDAPError, and any keyword that is not a control raises TypeError before anything is sent.", "quantifier": "all keyword dictionaries, control registries, server capability sets", "why_tests_cant": "all combinations", "anchors": ["laurelin/ldap/controls.py:process_kwds", "laurelin/ldap/controls.py:final_kwds", "laurelin/ldap/base.py:LDAP._process_ctrl_kwds"]}
{"id": "C25", "title": "Control registration keeps keywords and OIDs unambiguous", "statement": "After any sequence of registrations each keyword, request OID and response OID denotes at most one control, and a rejected registration leaves the registry unchanged.", "quantifier": "all registration sequences", "why_tests_cant": "all histories", "anchors": ["laurelin/ldap/controls.py:Control.register"]}
{"id": "C26", "title": "Response controls are attributed to the attribute their control defines", "statement": "Each response control of a message sets exactly the response attribute its registered control defines, with the value that control decodes; an unregistered response control or one whose attribute already exists on the object raises LDAPExtensionError; existing attributes are never overwritten.", "quantifier": "all control lists, registries and objects", "why_tests_cant": "all lists", "anchors": ["laurelin/ldap/controls.py:handle_response"]}
{"id": "C27", "title": "Schema validation accepts exactly the objects that meet their object classes", "statement": "validate_object succeeds iff objectClass is present, every mandatory attribute of every listed class (and its superclasses) is present, every attribute is allowed by some class, and every attribute's values pass validation; failures raise LDAPValidationError.", "quantifier": "all objects and schemas", "why_tests_cant": "all schemas and objects", "anchors": ["laurelin/ldap/schema.py:SchemaValidator"]}
{"id": "C28", "title": "Object class requirements are inherited from all superclasses", "statement": "must/may of a class are its own plus all superclasses' attributes; computing them repeatedly gives the same answer.", "quantifier": "all acyclic superclass graphs", "why_tests_cant": "unbounded chains", "anchors": ["laurelin/ldap/objectclass.py:ObjectClass"]}
{"id": "C29", "title": "Attribute types inherit unspecified features from the nearest supertype", "statement": "equality, syntax, length, single-value, collective, usage etc. come from the type itself if it specifies them and otherwise from the nearest supertype that does.", "quantifier": "all supertype chains", "why_tests_cant": "unbounded chains", "anchors": ["laurelin/ldap/attributetype.py:AttributeType"]}
{"id": "C30", "title": "Attribute value validation", "statement": "validate_modify rejects changes to a NO-USER-MODIFICATION attribute and values violating the syntax, validate_object rejects several values for a SINGLE-VALUE attribute; valid ones are never rejected.", "quantifier": "all attributes, value lists, modlists", "why_tests_cant": "all combinations", "anchors": ["laurelin/ldap/schema.py:SchemaValidator", "laurelin/ldap/attributetype.py:AttributeType.validate"]}
{"id": "C31", "title": "Temporarily disabled validators are always restored", "statement": "Inside a disable_validation block exactly the named validators are inactive; on leaving by any path the validator list is exactly what it was before.", "quantifier": "all validator lists, all names, nested contexts and exits", "why_tests_cant": "all nestings and exit paths", "anchors": ["laurelin/ldap/validation.py:DisabledValidationContext", "laurelin/ldap/base.py:LDAP.disable_validation"]}
{"id": "C32", "title": "LDIF line folding is lossless and bounded", "statement": "Folding a line then unfolding gives back the line, for every line without line breaks; no produced physical line exceeds the limit.", "quantifier": "all lines of all lengths", "why_tests_cant": "all lengths", "anchors": ["laurelin/ldap/ldapobject.py:LDAPObject.format_ldif", "laurelin/ldap/base.py:LDAP.process_ldif"]}
{"id": "C33", "title": "LDIF values are plain only if LDIF-safe", "statement": "A value is written literally only if it is a SAFE-STRING of RFC 2849, otherwise base64 encoded, so reading the LDIF gives the same value.", "quantifier": "all byte strings", "why_tests_cant": "all values", "anchors": ["laurelin/ldap/ldapobject.py:LDAPObject.format_ldif"]}
{"id": "C34", "title": "process_ldif performs the operations the LDIF describes, in order", "statement": "Each record is turned into one add/delete/modify/moddn with the DN, attributes and values stated in it; comment lines make no difference. A record that is refused (no dn or changetype, attribute options, a malformed modification, an unknown critical control) ends the run with an exception after the operations of the records before it, and nothing of what follows is done.", "quantifier": "all LDIF texts", "why_tests_cant": "all texts", "anchors": ["laurelin/ldap/base.py:LDAP.process_ldif"]}
{"id": "C35", "title": "Netgroup triples round-trip", "statement": "Formatting (host,user,domain) as a nisNetgroupTriple and extracting it returns the same triple; member lists are split into triples and group names correctly.", "quantifier": "all strings", "why_tests_cant": "all strings", "anchors": ["laurelin/extensions/netgroups.py"]}
{"id": "C36", "title": "Recursive netgroup expansion terminates and visits every reachable group", "statement": "Recursive member lookups terminate for every netgroup graph and return exactly the members of all reachable groups.", "quantifier": "all netgroup graphs including cyclic ones", "why_tests_cant": "all graphs", "anchors": ["laurelin/extensions/netgroups.py"]}
{"id": "C37", "title": "Described attributes", "statement": "Reading, adding, replacing and deleting key=value description attributes changes exactly the named keys, values containing '=' survive, undescribed descriptions are kept.", "quantifier": "all description value lists and keys", "why_tests_cant": "all inputs", "anchors": ["laurelin/extensions/descattrs.py"]}
{"id": "C38", "title": "TLS hostname verification accepts only certificates for the host", "statement": "check_hostname passes only if the certificate's CN equals the host or a SAN entry covers it; a DNS wildcard covers exactly one left-most label.", "quantifier": "all host names and certificates", "why_tests_cant": "all strings", "anchors": ["laurelin/ldap/net.py:LDAPSocket.check_hostname"]}
{"id": "C39", "title": "Host URIs are parsed unambiguously", "statement": "scheme://host[:port] and bare hosts resolve to the documented scheme, host and default port; ldapi decodes the socket path; unsupported schemes raise LDAPError.", "quantifier": "all strings", "why_tests_cant": "all strings", "anchors": ["laurelin/ldap/net.py:LDAPSocket._parse_uri"]}
{"id": "C40", "title": "Moving and renaming keeps object and server DN in step", "statement": "mod_dn/rename/move change the DN to newrdn + ',' + new parent both on the server and on the local object; a comma escaped in the RDN is part of the RDN.", "quantifier": "all DNs", "why_tests_cant": "all DNs", "anchors": ["laurelin/ldap/ldapobject.py:LDAPObject.mod_dn", "laurelin/ldap/base.py:LDAP.move", "laurelin/ldap/base.py:LDAP.rename"]}
{"id": "C41", "title": "Schema and controls of an extension are registered exactly once", "statement": "Calling require() any number of times, in any order across extensions, registers each element once.", "quantifier": "all call sequences", "why_tests_cant": "all histories", "anchors": ["laurelin/ldap/extensible/registration.py"]}
{"id": "C42", "title": "Extension activation binds names safely", "statement": "Binding an extension attribute never overrides a method or property of the class, never replaces another extension's attribute, and the same extension can be bound again without effect.", "quantifier": "all activation sequences", "why_tests_cant": "all histories", "anchors": ["laurelin/ldap/extensible/base.py"]}
{"id": "C43", "title": "Global configuration", "statement": "A global configuration key selects a parameter exactly when it spells its name in any letter case with or without the DEFAULT_ prefix, and normalising a normalised key changes nothing; set_global_config stores the last value given for each parameter, leaves the others alone, creates none, and raises KeyError exactly when some key is unknown (the known ones being applied); an unknown filter syntax stops it there.", "quantifier": "all keys, all dicts, all current defaults", "why_tests_cant": "all strings, all dicts in all orders", "anchors": ["laurelin/ldap/config.py:normalize_global_config_param", "laurelin/ldap/config.py:set_global_config"]}
{"id": "C44", "title": "Tags are unique and resolve to the tagged object", "statement": "tag(t) returns the object last and only registered under t; registering a used tag raises TagError; a failed lookup raises TagError; failing calls leave tags unchanged.", "quantifier": "all histories", "why_tests_cant": "all histories", "anchors": ["laurelin/ldap/base.py:LDAP.obj", "laurelin/ldap/base.py:LDAP.tag"]}
{"id": "C45", "title": "Iterating a search yields every entry exactly once then stops", "statement": "Iterating a search result handle yields each returned entry (and reference, per setting) in order, stops at success/noSuchObject and raises LDAPError on other result codes; a finished or abandoned handle yields nothing more.", "quantifier": "all server reply sequences", "why_tests_cant": "all sequences", "anchors": ["laurelin/ldap/base.py:SearchResultHandle"]}
{"id": "C46", "title": "find_closing_paren finds the matching parenthesis", "statement": "For text starting with '(', returns i iff text[:i+1] is the shortest balanced prefix; raises ValueError iff no prefix balances.", "quantifier": "all strings", "why_tests_cant": "unbounded nesting", "anchors": ["laurelin/ldap/utils.py:find_closing_paren"]}
{"id": "C47", "title": "Single-result lookups", "statement": "get / get_child / find return the one matching object, raise NoSearchResults when there is none and MultipleSearchResults when there are several; exists is true iff some result.", "quantifier": "all result lists", "why_tests_cant": "all lists", "anchors": ["laurelin/ldap/utils.py:get_one_result", "laurelin/ldap/base.py:LDAP.get", "laurelin/ldap/base.py:LDAP.exists"]}
{"id": "C48", "title": "add_or_mod helpers reach the requested state whether or not the entry exists", "statement": "add_or_mod_add_if_exists / add_or_mod_replace_if_exists and add_if_not_exists add the entry when absent and otherwise issue exactly the corresponding modification.", "quantifier": "all server states", "why_tests_cant": "all states", "anchors": ["laurelin/ldap/base.py:LDAP.add_or_mod_add_if_exists", "laurelin/ldap/base.py:LDAP.add_if_not_exists"]}
{"id": "C49", "title": "SASL mechanism downgrade detection", "statement": "After SASL bind with a security layer, a mechanism list different (as a set) from the one read before raises; equal sets are accepted.", "quantifier": "all mechanism lists", "why_tests_cant": "all lists", "anchors": ["laurelin/ldap/base.py:LDAP.recheck_sasl_mechs"]}
{"id": "C50", "title": "Schema descriptions yield exactly what they describe", "statement": "ObjectClass(text) and AttributeType(text), for a text that is an RFC 4512 object class or attribute type description (white space may stand for spaces and surround it), yield an object with exactly the described OID, names in order, superclasses or supertype, kind, required and allowed attributes, equality rule, syntax and length, flags and usage; what is not stated is the default or is inherited. Any other text raises LDAPSchemaError and nothing else.", "quantifier": "all strings", "why_tests_cant": "all texts: every combination of optional parts, spacing, names and numbers; the regular expression must neither skip a part nor read one as another", "anchors": ["laurelin/ldap/rfc4512.py", "laurelin/ldap/objectclass.py:ObjectClass.__init__", "laurelin/ldap/attributetype.py:AttributeType.__init__", "laurelin/ldap/protoutils.py:parse_qdescrs", "laurelin/ldap/utils.py:collapse_whitespace"]}
{"id": "C51", "title": "Escaping a filter value is faithful", "statement": "For every string s, (attr=escape(s)) is accepted, distinct inputs give distinct filters, and the value the server is asked to compare with is s itself.", "quantifier": "all strings", "why_tests_cant": "all strings, including ones that look like escapes", "anchors": ["laurelin/ldap/filter.py:escape", "laurelin/ldap/filter.py:_handle_rfc4515_ava"]}
{"id": "C52", "title": "Equality matching is an equivalence relation", "statement": "Every equality matching rule is reflexive, symmetric and transitive on the values it can prepare, so that looking a value up after storing it finds it.", "quantifier": "all matching rules, all values", "why_tests_cant": "all triples of values", "anchors": ["laurelin/ldap/rules.py:MatchingRule.match", "laurelin/extensions/base_schema.py:DistinguishedNameMatch", "laurelin/extensions/base_schema.py:GeneralizedTimeMatch"]}
{"id": "C53", "title": "Schema elements are registered unambiguously", "statement": "Registering an object class or attribute type makes its OID and all its names, in any case, stand for it; a clash raises LDAPSchemaError and changes nothing.", "quantifier": "all registries, OIDs and name lists", "why_tests_cant": "all registration orders", "anchors": ["laurelin/ldap/objectclass.py:ObjectClass.register", "laurelin/ldap/attributetype.py:AttributeType.register"]}
{"id": "C54", "title": "The LDIF of a transaction describes exactly its modifications", "statement": "Processing the LDIF text a modify transaction formats itself as asks for exactly the pending modifications, in order, on the same object.", "quantifier": "all DNs, all lists of modifications, all values", "why_tests_cant": "must hold for all values, including those with line breaks, colons or non-ASCII characters", "anchors": ["laurelin/ldap/ldapobject.py:ModTransactionObject.format_mod_ldif", "laurelin/ldap/base.py:LDAP.process_ldif"]}
{"id": "C55", "title": "A change is sent only if every validator accepts it", "statement": "Before an add or modify request is sent every configured validator is asked; the request passes iff every validator that implements the check accepts it, and otherwise the error of the first refusing validator reaches the caller.", "quantifier": "all lists of validators and all their outcomes", "why_tests_cant": "all numbers and outcomes of validators", "anchors": ["laurelin/ldap/base.py:LDAP._run_validation", "laurelin/ldap/base.py:LDAP.validate_object", "laurelin/ldap/base.py:LDAP.validate_modify"]}
{"id": "C56", "title": "LDAP URIs are taken apart into host, DN, attributes, scope, filter and extensions", "statement": "For every LDAP URI, each part that is present comes out as written, each missing part has its documented default, an unsupported critical extension is refused, and a parsed URI can be searched.", "quantifier": "all URIs, all lists of attributes and extensions", "why_tests_cant": "any combination of present and missing parts and any number of attributes and extensions", "anchors": ["laurelin/ldap/base.py:LDAPURI", "laurelin/ldap/constants.py:Scope.string"]}
{"id": "C57", "title": "Extended responses are delivered completely and in order", "statement": "Iterating the handle of an extended request yields every intermediate response and then the final one, in order, and reads nothing after it; with require_success any result but success raises LDAPError.", "quantifier": "all numbers of responses and all result codes", "why_tests_cant": "any number of intermediate responses", "anchors": ["laurelin/ldap/base.py:ExtendedResponseHandle"]}
{"id": "C58", "title": "Attribute changes by DN reach exactly the requested state", "statement": "LDAP.add_attrs / delete_attrs / replace_attrs change exactly the requested values of exactly that entry (adding only values without a match, deleting only those that match), in strict and non-strict mode and with or without an up-to-date current object; an error leaves the directory unchanged.", "quantifier": "all directories and lawful servers, all attribute dicts, both modes", "why_tests_cant": "the result depends on the state of the server and the schema's matching for every dict", "anchors": ["laurelin/ldap/base.py:LDAP.add_attrs", "laurelin/ldap/base.py:LDAP.delete_attrs", "laurelin/ldap/base.py:LDAP.replace_attrs"]}
{"id": "C59", "title": "Refreshing brings an object up to date", "statement": "refresh gives the requested attributes the server's values and leaves the others; refresh_missing queries exactly the attributes the object does not have, and nothing if there are none; has_object_class is true iff the entry has a matching objectClass value.", "quantifier": "all objects, entries and attribute lists", "why_tests_cant": "all combinations of known, missing and absent attributes", "anchors": ["laurelin/ldap/ldapobject.py:LDAPObject.refresh", "laurelin/ldap/ldapobject.py:LDAPObject.refresh_missing", "laurelin/ldap/ldapobject.py:LDAPObject.has_object_class"]}
{"id": "C60", "title": "Compare and delete report and do what they say", "statement": "compare returns true iff the entry has a matching value, false iff it has none, and raises otherwise; deleting an object removes exactly that entry and empties the object, a refused deletion changes neither; on an unbound connection nothing is sent.", "quantifier": "all directories, entries, values and server answers", "why_tests_cant": "all server states and answers", "anchors": ["laurelin/ldap/base.py:LDAP.compare", "laurelin/ldap/base.py:LDAP.delete", "laurelin/ldap/ldapobject.py:LDAPObject.delete"]}
{"id": "C61", "title": "Netgroup membership changes reach the directory", "statement": "Adding, replacing and deleting users or hosts of a netgroup by DN changes exactly the named triples and member groups of that entry (replace leaves an attribute alone for which no value was given), other entries and attributes are untouched, and a malformed member list sends nothing.", "quantifier": "all directories (whose entries hold no two equal values of an attribute, as RFC 4512 demands), groups, member lists and default domains, strict and non-strict connections", "why_tests_cant": "the member lists and the directory contents are unbounded", "anchors": ["laurelin/extensions/netgroups.py:LaurelinLDAPExtension"]}
{"id": "C62", "title": "Loading a configuration carries out its sections in order", "statement": "load_config_dict applies the global section, activates the extensions, then creates the connection with its objects; a failing section stops what follows; without a connection section nothing is sent and None is returned; load_file chooses the decoder by file extension.", "quantifier": "all configurations, network and server outcomes", "why_tests_cant": "configurations and failure points are unbounded", "anchors": ["laurelin/ldap/config.py:load_config_dict", "laurelin/ldap/config.py:load_file", "laurelin/ldap/config.py:activate_extensions"]}
{"id": "C63", "title": "A configured connection is secured and bound as configured, or not returned", "statement": "If create_connection returns, StartTLS was performed iff configured, then exactly the configured bind was sent with the configured arguments and accepted; credentials are never sent before a configured StartTLS has succeeded, whatever fails; asking for two binds is refused with nothing sent; every configured object is reachable by its tag; the same configuration can be used again.", "quantifier": "all configurations, all server and network outcomes at every step", "why_tests_cant": "every combination of settings and failure point", "anchors": ["laurelin/ldap/config.py:create_connection", "laurelin/ldap/config.py:_create_single_object"]}
{"id": "C64", "title": "Connection settings come from the arguments, else from the global defaults", "statement": "Every setting of a new connection is the constructor argument given, else the current global default, so a globally configured value reaches every later connection that does not override it; unknown keywords are refused with no effect; the connection's socket was opened with the connection's own timeout and TLS settings.", "quantifier": "all argument dicts, all global configurations, all earlier connections", "why_tests_cant": "all combinations and histories of shared sockets", "anchors": ["laurelin/ldap/base.py:LDAP.__init__"]}
{"id": "C65", "title": "Base DN of a new connection", "statement": "The base DN is the one given or globally configured, else the server's default naming context, else its only naming context; if it cannot be determined LDAPError is raised.", "quantifier": "all arguments, defaults and root DSE contents", "why_tests_cant": "all root DSEs", "anchors": ["laurelin/ldap/base.py:LDAP.__init__"]}
{"id": "C66", "title": "Built-in syntax rules accept exactly the values of their syntax", "statement": "Validating a value with one of the built-in attribute syntaxes (bit string, boolean, country, delivery method, directory string, DN, facsimile and telephone number, generalized time, IA5, integer, JPEG, name and UID, numeric, octet string, OID, mailbox, postal address, printable, substring assertion, teletex, telex, binary, certificate) succeeds exactly when the value belongs to the syntax as RFC 4517/4514/4512 define it, and raises InvalidSyntaxError for any other text; the outcome does not depend on the order in which Python lists a set.", "quantifier": "every syntax rule, every text or byte value, every set iteration order", "why_tests_cant": "Each rule is a language recogniser over infinitely many strings; tests try a handful, while the differences (final newline, unanchored patterns, zero, misspelt keywords, escapes) sit in values nobody thought of.", "anchors": ["laurelin/extensions/base_schema.py", "laurelin/ldap/rfc4514.py", "laurelin/ldap/rules.py", "laurelin/ldap/utils.py: escaped_regex, validate_phone_number"]}
{"id": "C67", "title": "Guide and Enhanced Guide values", "statement": "Validating a Guide or Enhanced Guide succeeds exactly for the values RFC 4517 (3.3.10, 3.3.14) defines, at any nesting of parentheses the recursion limit allows; any other text raises InvalidSyntaxError.", "quantifier": "every text, every nesting depth", "why_tests_cant": "Criteria are a recursive language; tests only reach a few shapes and depths, and malformed parentheses or text after a term are easily missed.", "anchors": ["laurelin/extensions/base_schema.py: EnhancedGuide, Guide", "laurelin/ldap/utils.py: find_closing_paren"]}
{"id": "C68", "title": "SASL bind exchange", "statement": "A SASL bind uses one mechanism, the one asked for or the default if the server lists it (otherwise LDAPSupportError with no bind request sent), or one chosen from the server's list; every request after the first carries the answer to the challenges received; the connection becomes bound exactly when the server replies success; closed or already bound connections send nothing.", "quantifier": "every server behaviour, every number of challenges, every mechanism list and SASL library behaviour", "why_tests_cant": "The dialogue length and the server's replies are unbounded and adversarial; tests replay one or two scripted dialogues.", "anchors": ["laurelin/ldap/base.py:LDAP.sasl_bind", "laurelin/ldap/base.py:LDAP.get_sasl_mechs", "laurelin/ldap/net.py:LDAPSocket.sasl_init, sasl_mech, sasl_process_auth_challenge"]}
{"id": "C69", "title": "Description syntaxes accept exactly the descriptions of RFC 4512", "statement": "Validating a value of one of the eight schema description syntaxes (attribute type, object class, matching rule, matching rule use, LDAP syntax, DIT content rule, DIT structure rule, name form) succeeds exactly when the value is a description as RFC 4512 section 4.1 defines it, and raises InvalidSyntaxError for any other text.", "quantifier": "all eight syntaxes, every text", "why_tests_cant": "Each rule recognises an infinite language built from lists, optional parts and quoted strings; tests try a few descriptions, while the differences (extensions, spaces, keyword case, missing parts) sit in untried texts.", "anchors": ["laurelin/ldap/rfc4512.py", "laurelin/extensions/base_schema.py", "laurelin/ldap/rules.py:RegexSyntaxRule"]}
{"id": "C70", "title": "A search sends what was asked for, or nothing", "statement": "A search sends exactly one request, carrying the base, scope, limits, alias handling, filter, attributes and controls asked for, with the connection's setting for each argument left out (the default filter always read in the standard syntax); or it raises and sends nothing: ConnectionUnbound on a closed connection, LDAPError for a filter that cannot be read, LDAPSupportError for object class attributes the server does not know, an error for limits out of range and for keywords that are neither controls nor usable for the objects found.", "quantifier": "every connection setting, every set of arguments, every filter text and every registered control", "why_tests_cant": "The combinations of given and omitted arguments, settings, filters and controls cannot be enumerated, and a wrong default silently asks for something else.", "anchors": ["laurelin/ldap/base.py:LDAP.search", "laurelin/ldap/base.py:LDAP.get", "laurelin/ldap/base.py:_check_obj_kwds"]}
{"id": "C71", "title": "Methods relative to an object", "statement": "Objects obtained from an object through obj, get_child, add_child, search or find have its search scope and RDN attribute unless given otherwise, through any number of generations; a child's DN is its RDN (completed with the RDN attribute if it is a bare value) in front of the object's DN; search asks below the object in its scope; find asks for the object with the RDN given - nothing for a base scope, the child itself for a one-level scope, the subtree for a subtree scope; without a connection or RDN attribute an error is raised and nothing is sent.", "quantifier": "every object, chain of relative calls, RDN and keywords", "why_tests_cant": "Settings are inherited along chains of unbounded length through five different methods; the special characters of RDNs and of filters differ, so RDN texts that work in one scope and not in the other are easily missed.", "anchors": ["laurelin/ldap/ldapobject.py:LDAPObject", "laurelin/ldap/base.py:LDAP.obj"]}
{"id": "C72", "title": "Paged results", "statement": "With the paged results extension, getting pages in a loop (starting with an empty cookie, passing on page_cookie, until it is empty) from a server that pages its results as RFC 2696 says yields every result exactly once and in order, whatever the page sizes and the number of pages; no page is larger than asked for; each request carries one control with the size, cookie and criticality given; values that are neither a size nor a pair, and sizes out of range, are refused with nothing sent.", "quantifier": "every result list, every page size per round, every cookie bytes and every conforming server", "why_tests_cant": "The number of pages and the cookies are up to the server; tests replay one page from a mock.", "anchors": ["laurelin/extensions/pagedresults.py:PagedResultsControl", "laurelin/ldap/controls.py:handle_response", "laurelin/ldap/protoutils.py:get_string_component"]}
{"id": "C73", "title": "One object per rule, whatever name it is asked for by", "statement": "Whatever a program registers, instantiates and asks for, in any order: syntax rules with the same OID are one object, and so are matching rules, whether asked for by OID or by name in any case; a registered rule is found by its OID and by its name in any case and is then an object of the registered class; unregistered identifiers raise KeyError; a second registration of an OID or name is refused.", "quantifier": "every history of registrations, instantiations and lookups", "why_tests_cant": "Objects are made on first use and shared through four global dictionaries; the outcome depends on the whole history of the process.", "anchors": ["laurelin/ldap/rules.py:get_syntax_rule", "laurelin/ldap/rules.py:get_matching_rule", "laurelin/ldap/rules.py:SyntaxRule.register", "laurelin/ldap/rules.py:MatchingRule.register"]}
{"id": "C74", "title": "TLS protects what is sent after it, or raises", "statement": "start_tls (and opening an ldaps URI) with verification succeeds only if the TLS library accepted the certificate for the default CAs and those given (arguments, else the connection's settings) and the certificate names the host; StartTLS is asked for in one request only if the server lists it, TLS begins only after the server agreed, never twice; from then on every message of every connection sharing the socket goes through this layer; after a failure nothing is sent to an unverified peer.", "quantifier": "every TLS library behaviour, certificate, setting, server answer and every later sequence of calls by any connection on the socket", "why_tests_cant": "Which messages are protected depends on all calls before and after; the dangerous cases are failing handshakes and certificates, which a test server does not produce.", "anchors": ["laurelin/ldap/net.py:LDAPSocket.start_tls", "laurelin/ldap/base.py:LDAP.start_tls"]}
{"id": "C75", "title": "Extended requests", "statement": "An extended request sends exactly one message with the OID, value and controls given, only if the server lists the OID; it raises LDAPSupportError, TypeError or the error of the control otherwise, and has then sent nothing; who_am_i returns the server's answer or raises LDAPError if it is a refusal.", "quantifier": "every OID, value, set of keywords, registered controls and supported list", "why_tests_cant": "The combinations of values, keywords and controls cannot be enumerated.", "anchors": ["laurelin/ldap/base.py:LDAP.send_extended_request", "laurelin/ldap/base.py:LDAP.who_am_i"]}
{"id": "C76", "title": "A netgroup search finds netgroups", "statement": "netgroups.search(F) sends one request below the tagged object, in its scope, for the attributes given or those of the class, with the conjunction of objectClass=nisNetgroup and the filter F: no entry but netgroups can be returned, whatever F is; every filter that a search accepts is accepted; without the tag TagError is raised and nothing is sent.", "quantifier": "every text F, attribute list, tagged object and connection settings", "why_tests_cant": "The filter is made by pasting text; which texts change its structure depends on the whole grammar, so only a statement about all texts says that none does.", "anchors": ["laurelin/extensions/netgroups.py:LaurelinLDAPExtension.search", "laurelin/extensions/netgroups.py:_netgroup_filter", "laurelin/extensions/netgroups.py:LaurelinLDAPExtension.get"]}
{"id": "C77", "title": "An object owns the values of its attributes", "statement": "Whatever a program does with objects and lists: o[a] is a list of its own for each object and attribute, made by the object (never the list passed in), so changing a list in place changes the one attribute it was read from, and changing any other list - one passed to the constructor, to o[a] = values, to update, or a copy - changes nothing; assignment, deletion, update, setdefault, copies and deepcopy give exactly the values passed or read, for names in any case; what is refused raises TypeError and changes nothing.", "quantifier": "every history of constructions, assignments, updates, deletions, lookups and in-place changes of any list, over any number of objects and lists, every case folding", "why_tests_cant": "Aliasing depends on the whole history: any of the lists a program holds may be the one an object stores. Tests try one assignment at a time.", "anchors": ["laurelin/ldap/ldapobject.py:LDAPObject.__init__, __setitem__", "laurelin/ldap/attrsdict.py:AttrsDict.setdefault, update, deepcopy, get_attr", "laurelin/ldap/attrvaluelist.py:AttrValueList.__init__", "laurelin/ldap/utils.py:CaseIgnoreDict"]}
{"id": "C78", "title": "Equality of objects is equality of what they hold", "statement": "Two objects are equal exactly when they have the same DN and give the same values for every attribute name; equality is reflexive, symmetric and transitive, and != is its negation.", "quantifier": "every pair of objects reachable by any history", "why_tests_cant": "The attributes and histories are unbounded; the exceptions need two objects with different histories.", "anchors": ["laurelin/ldap/ldapobject.py:LDAPObject.__eq__", "laurelin/ldap/ldapobject.py:LDAPObject.__ne__"]}
{"id": "C79", "title": "Requests are the RFC 4511 messages of their arguments", "statement": "simple_bind, sasl_bind, unbind, abandon, search, compare, add, delete, mod_dn, modify and extended requests send exactly the octets that RFC 4511 and X.690 define for their arguments: the right tags, field order, optional parts, numbers, UTF-8 for text and the octets themselves for bytes, the controls with OID, criticality and value; arguments that cannot be encoded (lone surrogates, non-ASCII OIDs, numbers out of range) raise and send nothing; filters on the wire are well-formed.", "quantifier": "every argument of every operation, text or bytes of any length, every list of controls, every message ID and every filter the parsers accept", "why_tests_cant": "A single wrong tag or swapped field in any of some hundred classes makes messages that only some servers refuse; arguments and nesting of filters are unbounded.", "anchors": ["laurelin/ldap/rfc4511.py", "laurelin/ldap/base.py:LDAP", "laurelin/ldap/protoutils.py:pack", "laurelin/ldap/controls.py:Control.prepare", "laurelin/ldap/filter.py"]}
{"id": "C80", "title": "Messages are self-delimiting and unambiguous", "statement": "The octets of a message determine it: no octet string encodes two messages, none is an initial part of another, so a stream of messages splits in one way only, whatever length forms were used; every message within the ranges of the RFC has an encoding.", "quantifier": "every pair of messages of all 21 kinds, every choice of encodings, every stream and what follows it", "why_tests_cant": "Ambiguity would need a pair of messages out of infinitely many; tests look at single messages.", "anchors": ["laurelin/ldap/rfc4511.py", "laurelin/ldap/net.py:LDAPSocket.recv_messages"]}
{"id": "C81", "title": "Replies are read as RFC 4511 means them", "statement": "For every reply that RFC 4511 allows, in every encoding: replies of another kind than expected are refused with UnexpectedResponseType; result code 0 means success and any other LDAPError (compare: 6 true, 5 false; SASL: 14 goes on with the challenge); entries have the DN, attributes and values sent, in order, each value as text exactly when it is UTF-8 and as the same octets otherwise; references, referrals, extended and intermediate responses give what was sent.", "quantifier": "every message of the RFC, every encoding of it, every registered control", "why_tests_cant": "Replies come from servers the tests do not run; the property is about all messages and all encodings of each.", "anchors": ["laurelin/ldap/protoutils.py:unpack, seq_to_list, get_string_component", "laurelin/ldap/base.py:LDAP._success_result, compare, add, sasl_bind, who_am_i", "laurelin/ldap/base.py:SearchResultHandle.__iter__", "laurelin/ldap/base.py:ExtendedResponseHandle._handle_msg", "laurelin/ldap/rfc4511.py"]}
{"id": "C82", "title": "The shipped schema loads and says what the RFCs say", "statement": "Requiring base_schema and netgroups succeeds; afterwards every class and attribute type of the table (29 classes, 107 types of RFC 4512, 4519, 4524, 2798, 2307, ...) is found by its OID and by its names in any case, and no other name or OID is; must and may contain exactly the attributes listed, inherited ones included, in every access; syntax, length limit, equality rule, SINGLE-VALUE and NO-USER-MODIFICATION are those of the table, inherited if not stated; every attribute, superclass, supertype, syntax and equality rule mentioned is registered; later registrations change none of this.", "quantifier": "every identifier, every case folding that agrees with ASCII, every order of accesses, every later history of definitions and require() calls", "why_tests_cant": "A test checks some identifiers in one order of accesses; the claim is about all identifiers, all access orders and all later histories.", "anchors": ["laurelin/extensions/base_schema.py:LaurelinSchema", "laurelin/extensions/netgroups.py:LaurelinSchema", "laurelin/ldap/schema.py", "laurelin/ldap/objectclass.py:ObjectClass", "laurelin/ldap/attributetype.py:AttributeType"]}
{"id": "C83", "title": "Validation with the shipped schema", "statement": "With the shipped schema an object is accepted exactly if it has objectClass, all attributes its classes require, none but those they require or allow, and values that obey syntax, length limit and single-value flag of their attributes (and are not NO-USER-MODIFICATION when written); modifications exactly if every value given is good for its attribute; names are case-insensitive; an extensibleObject may have any attribute.", "quantifier": "every object, every modification, every history of accesses", "why_tests_cant": "Objects and modifications are unbounded.", "anchors": ["laurelin/ldap/schema.py:SchemaValidator", "laurelin/extensions/base_schema.py:LaurelinSchema"]}
{"id": "C84", "title": "Values are found by the equality rule of their attribute", "statement": "index, in and remove on the values of an attribute find the first value that its equality rule in the shipped schema considers equal to the one given: ignoring case and insignificant space for cn, by digits for telephone numbers, literally for integers and OIDs, and so on; add_attrs and delete_attrs send accordingly.", "quantifier": "every attribute of the schema, every list of values, every value, every normalization", "why_tests_cant": "Values and lists are unbounded; normalization and case folding are Unicode tables.", "anchors": ["laurelin/ldap/attributetype.py:AttributeType.index", "laurelin/ldap/rules.py:MatchingRule", "laurelin/extensions/base_schema.py:LaurelinSchema", "laurelin/ldap/modify.py"]}
{"id": "C85", "title": "required_attr and allowed_attr", "statement": "get_object_class(c).required_attr(a) is true exactly if c or one of its ancestors requires a, allowed_attr(a) exactly if one of them requires or allows it or c is extensible; unknown names yield a class that requires and allows nothing; validation agrees with both.", "quantifier": "every schema without cycles, every class, attribute and history of accesses", "why_tests_cant": "Schemas and histories are unbounded.", "anchors": ["laurelin/ldap/objectclass.py:ObjectClass.allowed_attr", "laurelin/ldap/objectclass.py:ObjectClass.required_attr", "laurelin/ldap/objectclass.py:ExtensibleObjectClass.allowed_attr"]}
{"id": "C86", "title": "Objects without a connection never reach a server", "statement": "Whatever methods are called on an object that has no connection, in any order and between any other calls and events: nothing is sent, the directory is not changed, the object never gets a connection, and objects made from it have none; every method that needs the server raises an error whatever its arguments and leaves the object as it was; the only methods that return are those that need nothing from the server.", "quantifier": "every method, argument, object without a connection and history of a session", "why_tests_cant": "The claim is about all methods under all arguments and histories; tests call a method or two on a local object.", "anchors": ["laurelin/ldap/ldapobject.py:LDAPObject._require_ldap, _has_ldap", "laurelin/ldap/ldapobject.py:LDAPObject.add_attrs, delete_attrs, validate, validate_modify", "laurelin/extensions/netgroups.py"]}
{"id": "C87", "title": "A deleted object is gone for good", "statement": "obj.delete() sends exactly one delete request for the object; if the server agrees the object has no DN, no attributes and no connection, from then on, through every later history, none of its methods sends anything, and each that needs the server raises; if the server refuses, LDAPError is raised and the object is unchanged. No usable object can be made from a deleted one.", "quantifier": "every object, server answer and later history", "why_tests_cant": "What may follow a delete is unbounded, and stale objects are used long after the call that deleted them.", "anchors": ["laurelin/ldap/ldapobject.py:LDAPObject.delete", "laurelin/ldap/ldapobject.py:LDAPObject._require_ldap", "laurelin/ldap/ldapobject.py:LDAPObject.obj"]}
{"id": "C88", "title": "An object only touches its own entry and what is below it", "statement": "Every request of every method of an object is about the entry with its DN or one below it; methods that look send nothing that could change the directory, the others at most one request that could; on an unbound connection nothing is sent; DN and settings change only in a rename, move or delete. Hence in every history without renames, all requests of objects inside a subtree, and of all objects obtained through them in any number of steps, are about that subtree.", "quantifier": "every method, argument, object, server and history over any number of objects", "why_tests_cant": "Objects yield objects through five methods for any number of generations; that no chain of calls leaves the subtree is a claim about all of them.", "anchors": ["laurelin/ldap/ldapobject.py:LDAPObject", "laurelin/ldap/base.py:LDAP", "laurelin/extensions/netgroups.py"]}
{"id": "C89", "title": "What an object shows is what is in the directory", "statement": "As long as nothing else changes its entry, an object that shows nothing but what is in the directory goes on doing so, whatever methods are called on it and on other objects, whichever of them raise: every value read from it, under any spelling of the attribute name, is in the entry, all values of that attribute are shown, and has_object_class tells the truth; objects fetched with get_child or made without attributes start that way. If a method raises, nothing was changed.", "quantifier": "every lawful directory server, every history of calls on any number of objects, every attribute loaded or not", "why_tests_cant": "Objects hold a part of an entry, changed locally after each request; whether local and remote copies drift apart depends on which attributes were loaded by which earlier calls. Tests look at single calls on fully loaded objects.", "anchors": ["laurelin/ldap/ldapobject.py:LDAPObject.modify, _local_modify, add_attrs, delete_attrs, replace_attrs, refresh, refresh_missing, has_object_class, mod_dn", "laurelin/ldap/base.py:LDAP.modify, get"]}
{"id": "C90", "title": "Netgroup methods of objects", "statement": "add_users, add_hosts, replace_users, replace_hosts, delete_users and delete_hosts of an object return only if its entry is a nisNetgroup, and have then made exactly the change the members listed mean, to that entry alone; on any other entry, and for members that mean nothing, they raise and send nothing that could change the directory; whenever they raise the directory is as it was; afterwards the object shows nothing but what is in the entry.", "quantifier": "every lawful server, every object, loaded or not, every list of members and domain", "why_tests_cant": "The class check, the parsing of members, the minimal modifications and the local update each depend on what was loaded before and on every member of an unbounded list.", "anchors": ["laurelin/extensions/netgroups.py:LaurelinLDAPObjectExtension", "laurelin/ldap/ldapobject.py:LDAPObject.has_object_class"]}
{"id": "C91", "title": "From the octets the server sends to results", "statement": "A search yields, for the messages the server sends with its message ID, in order, one object for each entry and one set of URIs for each reference, standing for just what the message says, and ends as the result code of the final message says; bind, modify, delete and mod_dn return or raise as the first message with their ID says: whatever messages with other IDs come in between, whichever of its encodings each message has, and however the octets are cut into pieces on the way.", "quantifier": "every sequence of messages of a server, every encoding RFC 4511 allows for each, every cutting of the octets into chunks, every message ID, every state of the tag table", "why_tests_cant": "The socket reader, the queues, the decoder tables, control handling and iteration each keep state; that they compose to this holds for infinitely many streams, encodings and cuttings.", "anchors": ["laurelin/ldap/net.py:LDAPSocket.recv_messages, recv_one", "laurelin/ldap/base.py:LDAP._success_result, SearchResultHandle.__iter__", "laurelin/ldap/protoutils.py:unpack, get_string_component, seq_to_list", "laurelin/ldap/controls.py:handle_response"]}
{"id": "C92", "title": "Domains and constants as text", "statement": "dc writes a domain name as one dc= component per label, in order, and so that the DN of a domain lies directly below that of its parent; domain gives the name back, for exactly the names without comma and equals sign, and dc undoes domain on exactly the DNs made of domain components; domain fails on exactly the texts with a component without equals sign. Scopes, filter syntaxes and modify operations are recognised by their words (scopes and syntaxes in any letter case), by no others, and are turned back into the same words; each constant has the number RFC 4511 gives it and is shown as the expression that denotes it; constants of different kinds with the same number are not told apart.", "quantifier": "every text, every domain, every enumerated value", "why_tests_cant": "The texts are unbounded, and where the inverse fails (labels with separators) is a matter of every possible label.", "anchors": ["laurelin/ldap/__init__.py:dc, domain, _enum_repr", "laurelin/ldap/constants.py:FilterSyntax.string, Scope.string, Scope.constant, _scope_repr, _deref_repr", "laurelin/ldap/modify.py:Mod.op_to_string, Mod.string, _mod_op_repr"]}
{"id": "C93", "title": "Operations one after the other over the wire", "statement": "In every session of bind, delete, mod_dn, modify, add, compare and search calls, each call that can be encoded reaches the server as the message of its arguments, exactly once and in order, with the IDs 1, 2, 3 and so on, and returns or raises what the answer to that message says; all other calls raise and nothing reaches the server; no call is left waiting, takes the answer of another one or loses an answer.", "quantifier": "every list of calls with controls, every server that answers each request with messages of its ID in the right form, of any state, every encoding of its answers and every cutting of the octets", "why_tests_cant": "One session is a composition of request building, encoding, ID assignment, the socket reader and reply handling over any number of operations; what one leaves in the socket is what the next one finds.", "anchors": ["laurelin/ldap/base.py:LDAP.simple_bind, search, compare, add, delete, mod_dn, modify, _success_result, SearchResultHandle.__iter__", "laurelin/ldap/net.py:LDAPSocket.send_message, recv_one, recv_messages"]}
{"id": "C94", "title": "Security layers", "statement": "After a SASL bind everything sent goes through the security layer, one buffer per message, and is opened on the other side to exactly the messages whose sending returned, in order. What is received through a layer that protects integrity is, whatever arrives and whatever readers there are, only messages the server sent, none twice; one reader that starts again after every refusal gets the messages of its ID in order from the first on; as long as the layer opens all that arrives everything goes as without a layer. Buffers that the server sends are received however long they are and however they are cut on the way.", "quantifier": "every layer (any functions of its state), every sequence of pieces arriving, chosen by an attacker or not, every history of readers, every list of operations sent", "why_tests_cant": "Attackers choose what arrives and where it is cut; readers can be opened, resumed and dropped in any order; the layer keeps state. Tests have no security layer at all.", "anchors": ["laurelin/ldap/net.py:LDAPSocket._prep_message, send_message, recv_messages, recv_one, sasl_init, RECV_BUFFER"]}
{"id": "C95", "title": "Operations one after the other over a secured connection", "statement": "After a SASL bind with a security layer, whose two ends are in step and each of whose buffers arrives in one read, a session of bind, delete, mod_dn, modify, add, compare and search calls goes as it does in clear text: each call that can be encoded reaches the server as the message of its arguments, exactly once and in order, with the next message ID, and returns or raises what the answer to that message says; all other calls raise and nothing reaches the server; no call waits for ever. Every session possible in clear text is possible with the layer, with the same results.", "quantifier": "every layer (any functions of the states of its two ends that undo each other), every server, every list of calls and arguments, every encoding of the answers, every way the server cuts them into buffers, every starting message ID", "why_tests_cant": "One SASL client holds the state of both directions, changed by each message sent and each read; whether the ends stay in step through operations that fail, answers of any number of messages and buffers that do not end where messages do is a matter of all histories.", "anchors": ["laurelin/ldap/net.py: LDAPSocket._prep_message, send_message, recv_one, recv_messages, sasl_process_auth_challenge", "laurelin/ldap/base.py: LDAP.simple_bind, search, compare, add, delete, mod_dn, modify, SearchResultHandle.__iter__"]}
{"id": "C96", "title": "Opening a connection", "statement": "A connection that is opened is connected to what the URI names and to nothing else: host and port, the path of a Unix socket, or for ldapi:/// the first of the well-known places where one server can be reached when its turn comes; what can be opened is opened, and otherwise LDAPConnectionError (nothing accepts), LDAPError or the error of the URI is raised and there is no connection. With ldaps everything the connection ever sends goes through one TLS layer, opened with the settings asked for, and with verification only to a holder of a certificate for the host in the URI, also when connections share a socket. Several servers in a usual place do not hinder each other, and an open connection waits for the server as long as it takes.", "quantifier": "every URI, every state and every change of the file system and of the listeners meanwhile, every outcome of the ssl module, all settings, every list of openings in one program, every later use of the socket", "why_tests_cant": "Which socket is found depends on files and servers that change while the search goes on, and what is shared on all connections opened before; TLS matters for all messages of all later histories.", "anchors": ["laurelin/ldap/net.py: LDAPSocket.__init__, _parse_uri, _uri_connect, _connect, _inet_connect, start_tls, LDAPI_SOCKET_PATHS", "laurelin/ldap/base.py: LDAP.__init__, _sockets"]}
{"id": "C97", "title": "Unsolicited notices", "statement": "When the server sends a message with ID 0, however it arrives, the next read of any operation that is not abandoned raises LDAPUnsolicitedMessage with that message, after the operation got every message of its ID that came before, in order, and not later; the messages for other operations that came before are kept and given to their readers without waiting for the server; what is lost is only part of what came after it. The text of the exception names the kind of notice, the result code and the diagnostic message, and explains the codes protocolError and strongerAuthRequired; a message of another kind, or one that cannot be read as text, has a text of its own.", "quantifier": "every sequence of messages before and everything after the notice, every way of cutting it into reads, every state of the queues, every ID and set of abandoned IDs, every notice in every encoding", "why_tests_cant": "Where the notice falls among other messages and reads, and what other operations are owed at that moment, are matters of all histories.", "anchors": ["laurelin/ldap/net.py: LDAPSocket.recv_messages, recv_one, OID_DISCONNECTION_NOTICE", "laurelin/ldap/exceptions.py: LDAPUnsolicitedMessage"]}
{"id": "C98", "title": "Responses of extended operations from the octets", "statement": "For an extended operation, from whatever the server sends, encoded and cut in any way and mixed with messages for other operations: iterating over the handle yields one object for each intermediate response and for the extended response with its ID, in order, that shows exactly the name, value, result and controls of the message, and then ends; with success required a result other than success raises LDAPError in place of the last one, and only that; a message of another kind raises UnexpectedResponseType after those before it; a notice with ID 0 raises LDAPUnsolicitedMessage after those before it; recv_response gives the same one at a time, and an error does not disturb later ones; who_am_i returns the text of the value of a successful response.", "quantifier": "every sequence of messages of any IDs, every encoding and cutting into reads, every number of intermediate responses, success required or not", "why_tests_cant": "Nothing is lost, repeated or mixed up only if reader, decoder and handle fit together for all sequences and cuttings.", "anchors": ["laurelin/ldap/base.py: ExtendedResponseHandle._handle_msg, __iter__, recv_response, LDAP.who_am_i", "laurelin/ldap/net.py: LDAPSocket.recv_messages"]}
{"id": "C99", "title": "The SASL exchange from the octets", "statement": "In a SASL bind with the chosen mechanism each request reaches the server as the bind request of RFC 4511 with version 3, an empty name, the mechanism, and as credentials exactly what the SASL client answered to the challenge of the answer before (none at first), with the next message ID; the bind returns exactly if the last answer is a success whose controls can be handled, and then all answers before it were challenges; any other result code raises LDAPError, an answer of another kind UnexpectedResponseType, an error of the SASL client is raised as it is, and a response that cannot be encoded raises before anything more is sent. How the messages are encoded and cut into pieces makes no difference; nothing is waited for that has arrived, nothing stays in the connection, and operations afterwards go as on a new connection with the message IDs that follow.", "quantifier": "every mechanism, controls, every SASL client (any function of its state and the challenge, failing or not), every server answering each request with a message of its ID, every number of rounds, every encoding and cutting of the octets, every first message ID", "why_tests_cant": "The number of rounds is up to client and server; that the response sent is the one to the last challenge, and no success is seen where there is none, concerns all their histories and all encodings.", "anchors": ["laurelin/ldap/base.py: LDAP.sasl_bind", "laurelin/ldap/net.py: LDAPSocket.sasl_process_auth_challenge, send_message, recv_one"]}
