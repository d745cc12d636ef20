# Formal model of ashafer01/laurelin in Rocq (Coq 8.16.1)

## Approach

Every modelled Python function is a small total Gallina function in
`rocq/theories/Model_*.v`, with a comment citing file and lines in /repo.
Exceptions are values (`res A := Ok a | Raise e`), mutation is state passing,
loops are structural recursion or explicit fuel (out-of-fuel is a distinct
outcome; theorems either cover every finished run and show that more fuel does
not change it, or exclude it). Externals (Unicode `str.lower`, NFKC, the ASN.1
codec, `urlparse`, the SASL library, the network, the server) are *arguments* of
the model functions (Section contexts or records, universally quantified in every
theorem); there are no axioms. Where a theorem needs a law of such an argument
the law is a visible hypothesis, and an Example exhibits an instance.

Per topic X: `Model_X.v` (definitions only), `Spec_X.v` (a small independent
specification), `Proofs_X.v`, `Proofs_X2.v`, ... (lemmas), `Props_X.v` (the
property theorems named `Cnn_...`, each followed by `Print Assumptions`, and
Examples `..._nonvacuous` meeting the hypotheses).

Where the code violates a property the full statement stays in
properties.jsonl, theorems `..._refuted...` prove that it fails (usually with a
concrete witness computed through the model), what does hold is proved as
`..._partial` (or, when it is an exact characterisation, under its own name),
and MANIFEST.json says partial.

## Plan and status per property

| id | property | topic (Model_/Spec_/Proofs_/Props_) | what is modelled and how it is proved | status |
|----|----|----|----|----|
| C01 | Attribute dictionaries behave as a map keyed by case-folded name | CIDict | CaseIgnoreDict's two dicts as association lists; refinement to a map keyed by the folded name, induction over histories of calls | proved |
| C02 | Enumerating an attribute dictionary lists every attribute exactly once, with its current values | CIDict, CIDict3 | same model; invariant relating the spelling table to the values, plus computed counterexamples C02_pop_stored_spelling_partial: from the invariant dict_ok of reachable dictionaries. | partial |
| C03 | AttrsDict admits only str names and lists of str/bytes, and bulk updates are all-or-nothing | CIDict, CIDict2 | AttrsDict type checks over a universe of Python values; case analysis and induction over the dict | proved |
| C04 | Value lookup uses the attribute's equality rule and finds the first matching value | Modify | AttributeType.index / AttrValueList with validate, prepare, do_match as parameters; induction over the value list | proved |
| C05 | Adding attributes sends exactly the values the object does not already have | Modify, Modify2 | Mod, Modlist, AddModlist; characterised as a filter of the request, induction | proved |
| C06 | Deleting attributes sends exactly the values the object has | Modify | DeleteModlist; as C05 | proved |
| C07 | modify sends exactly the requested changes, in order, as one request, or nothing | Modify, Modify2 | LDAP.modify's loop producing the request; induction over the modlist | proved |
| C08 | After a successful modify the local object mirrors the server entry | Modify, Modify3 | LDAPObject.modify and _local_modify against a reference RFC 4511 modify; simulation over the modlist; computed counterexamples | partial |
| C09 | Add-then-delete and idempotence of the smart modification helpers | Modify | composition of C05/C06 with the local update | proved |
| C10 | Transactions send nothing before commit and exactly the accumulated changes on commit | Tx | ModTransactionObject as a state machine with a log of requests; invariant over all operation sequences | proved |
| C11 | Checkpoints nest: abandoning one restores the state at its start | Tx | nested checkpoints of the same machine; invariant | proved |
| C12 | A transaction object refuses every operation that is not an attribute modification | Tx | every other method of the transaction object; case analysis | proved |
| C13 | Escaped user input cannot change the structure of a filter | Filter | filter.escape and the PEG grammars as parser functions; the parser reads the escaped text as one value token (prefix lemmas) | proved |
| C14 | Printing and re-parsing a filter gives back the same filter | Filter | printer and standard parser; exact characterisation of the accepted texts, round trip by induction on filters | partial |
| C15 | The unified syntax accepts every standard filter with the same meaning | Filter | the unified grammar tried with the standard one first; from the characterisations | proved |
| C16 | Simple filter operators have the documented precedence | Filter | the simple grammar; accepted texts are exactly the renderings of logic expressions, induction on expressions and on fuel | proved |
| C17 | Every RFC 4512 attribute description is accepted in filters | Filter | the attribute description terminals; language inclusion, counterexamples for ordered choice | partial |
| C18 | Space and character preparation is idempotent and identifies exactly the intended values | Prep, Prep2 | rfc4518 steps; algebra over lists of characters | proved |
| C19 | String preparation rejects a value iff it contains a prohibited character anywhere | Prep | the regular expression's character table against the RFC tables (Spec_PrepTable, from CPython's stringprep); interval arithmetic by computation lifted to all characters by a checked interval lemma | partial |
| C20 | Each reply is delivered to the operation that asked for it, once and in order | Net | recv_messages generators, the shared queue and partial buffers as a step machine over arbitrary chunkings and schedules; invariant; counterexamples | partial |
| C21 | Message IDs are never reused on a connection | Net | message ID counter over all histories of sends | proved |
| C22 | Bind state machine: at most one successful bind, nothing after unbind | Conn | bind/unbind state machine; invariant over histories of events whose outcomes are arbitrary | partial |
| C23 | A shared socket is closed exactly when its last user unbinds | Conn | registry of shared sockets with reference counts; invariant under the stated discipline; counterexamples | partial |
| C24 | Control criticality is honoured and no keyword is silently dropped | Controls | process_kwds with an arbitrary registry and capability set; induction over the keyword dict | partial |
| C25 | Control registration keeps keywords and OIDs unambiguous | Controls | registration of control classes; invariant over all sequences | partial |
| C26 | Response controls are attributed to the attribute their control defines | Controls | handle_response; induction over the control list | proved |
| C27 | Schema validation accepts exactly the objects that meet their object classes | Schema | schema validator over a schema environment; induction on superclass chains; exact iff | partial |
| C28 | Object class requirements are inherited from all superclasses | Schema | ObjectClass.must/may with the lazily filled caches; invariant over histories of accesses | proved |
| C29 | Attribute types inherit unspecified features from the nearest supertype | Schema | AttributeType inheritance; induction on supertype chains | proved |
| C30 | Attribute value validation | Schema | validation of modlists; induction | partial |
| C31 | Temporarily disabled validators are always restored | Schema | DisabledValidationContext as a state machine with arbitrary bodies | proved |
| C32 | LDIF line folding is lossless and bounded | Ldif | format_ldif's folding; list lemmas | partial |
| C33 | LDIF values are plain only if LDIF-safe | Ldif, Ldif3 | SAFE-STRING decision, UTF-8 and base64 encoders in full; an independent RFC 2849 reader reads the output back | partial |
| C34 | process_ldif performs the operations the LDIF describes, in order | Ldif, Ldif2, Ldif3 | process_ldif line by line; simulation against described operations; counterexamples | partial |
| C35 | Netgroup triples round-trip | Netgroups | triple parsing and rendering; exact round-trip condition | partial |
| C36 | Recursive netgroup expansion terminates and visits every reachable group | Netgroups | recursive expansion with recursion depth; reachability, acyclic graphs by rank induction | partial |
| C37 | Described attributes | Desc | descattrs with a heap of lists (aliasing is the point); invariant over sequences of calls against a lawful server | partial |
| C38 | TLS hostname verification accepts only certificates for the host | Uri | check_hostname; string lemmas; exact iff | partial |
| C39 | Host URIs are parsed unambiguously | Uri | _parse_uri; string lemmas | partial |
| C40 | Moving and renaming keeps object and server DN in step | Dir | mod_dn, rename, move against any lawful server (Model_Dir); string lemmas for the RDN split | partial |
| C41 | Schema and controls of an extension are registered exactly once | Registration | two-step registration of modules' elements; invariants over arbitrary histories of imports and require calls | partial |
| C42 | Extension activation binds names safely | Extensible, Extensible2 | activation of extensions with an import system; invariants over arbitrary histories | proved |
| C43 | Global configuration | Config, Config2 | set_global_config over its 23 parameters; induction over the dict | proved |
| C44 | Tags are unique and resolve to the tagged object | Search | tags; refinement over histories | partial |
| C45 | Iterating a search yields every entry exactly once then stops | Search | SearchResultHandle as a generator over the reply list; induction | partial |
| C46 | find_closing_paren finds the matching parenthesis | Guide | find_closing_paren; induction over the text against the balanced-prefix specification | proved |
| C47 | Single-result lookups | Search | get, exists, find over arbitrary RFC 4511 answers; case analysis on 0/1/2 matches | partial |
| C48 | add_or_mod helpers reach the requested state whether or not the entry exists | Dir | add_or_mod helpers against any lawful server | partial |
| C49 | SASL mechanism downgrade detection | Sasl | recheck_sasl_mechs and a whole bind against an adversarial server (function of the history); case analysis, induction over the dialogue | proved |
| C50 | Schema descriptions yield exactly what they describe | Parse | regular expressions of rfc4512.py as syntax trees, a backtracking matcher, and the constructors; the matcher is proved to implement the grammar, greedy captures determined uniquely | partial |
| C51 | Escaping a filter value is faithful | Filter | escape against RFC 4515 decoding | partial |
| C52 | Equality matching is an equivalence relation | Prep, Prep2 | the equality matching rules; algebra | partial |
| C53 | Schema elements are registered unambiguously | Schema | register() of the schema elements; case analysis, induction | partial |
| C54 | The LDIF of a transaction describes exactly its modifications | Ldif | format_mod_ldif composed with process_ldif | partial |
| C55 | A change is sent only if every validator accepts it | Schema | list of validators with arbitrary outcomes; induction | proved |
| C56 | LDAP URIs are taken apart into host, DN, attributes, scope, filter and extensions | Search | LDAPURI over urlparse's parts; string lemmas | partial |
| C57 | Extended responses are delivered completely and in order | Search | ExtendedResponseHandle; induction over the replies | proved |
| C58 | Attribute changes by DN reach exactly the requested state | Dir | add/replace/delete_attrs by DN against any lawful server | partial |
| C59 | Refreshing brings an object up to date | Dir | refresh, refresh_missing, has_object_class | partial |
| C60 | Compare and delete report and do what they say | Dir | compare, delete | proved |
| C61 | Netgroup membership changes reach the directory | Netgroups | netgroup modifications on top of Model_Dir | proved |
| C62 | Loading a configuration carries out its sections in order | Config | load_config over four sections; arbitrary environment record | partial |
| C63 | A configured connection is secured and bound as configured, or not returned | Config, Config2 | create_connection and the constructor; arbitrary environment record | partial |
| C64 | Connection settings come from the arguments, else from the global defaults | Config | constructor arguments and class defaults, shared socket registry | partial |
| C65 | Base DN of a new connection | Config | base DN choice; case analysis | proved |
| C66 | Built-in syntax rules accept exactly the values of their syntax | Syntax | 25 syntax rules over the regular expression matcher; language equalities | partial |
| C67 | Guide and Enhanced Guide values | Guide, Guide2 | Guide criteria parser with a depth parameter; induction on text length and depth | partial |
| C68 | SASL bind exchange | Sasl | sasl_bind loop with fuel (unbounded: any terminating run is covered, more fuel changes nothing); induction over the dialogue | proved |
| C69 | Description syntaxes accept exactly the descriptions of RFC 4512 | DescSyntax | Model_DescSyntax: the eight patterns of rfc4512.py as regex trees under the anchored matcher. Proof: each pattern's language is the grammar of Spec_DescSyntax in the code's style; grammars are monotone in the style; a verified decision procedure for the RFC grammar gives the counterexamples. | partial |
| C70 | A search sends what was asked for, or nothing | Request, Request2 | Model_Request.build: LDAP.search up to sending, over Model_Filter's parsers and Model_Controls' keyword processing. Spec: the request field by field, and when it is possible. Proof: build succeeds exactly when possible, with exactly the request asked for (equivalence by case analysis; C24 and the filter theorems are reused). | partial |
| C71 | Methods relative to an object | Request, Request2 | Model_Request: the relative methods on top of LDAP.search/add/obj with keyword defaults. Proof: setdefault/others_of lemmas give inheritance for one step (five constructors), induction over the chain gives any depth; requests by C70; filter of find by the exact standard parser (C14). | partial |
| C72 | Paged results | Paged, Paged2, Paged3 | Model_Paged: prepare/handle of the control, a page = Model_Request's search plus Model_Controls' response handling, the documented loop. Spec_Paged: conforming server over histories. Proof: invariant (position of the cookie) by induction over rounds; instances: BER encoder/decoder with proved round trip, a server keeping the position in the cookie. C72_cookie_exact, C72_bad_tuple: by computation from the outcome of the decoder. | partial |
| C73 | One object per rule, whatever name it is asked for by | Rules | Model_Rules: the six dictionaries, register, __init__ and the two lookups; a program is any list of operations. Proof: nothing stored is ever replaced, and every object given out stays stored under its OID (any history); for orderly histories the class and object dictionaries by OID and by name agree (invariant by induction over the history). | partial |
| C74 | TLS protects what is sent after it, or raises | Tls, Tls3 | Model_Tls: LDAPSocket.start_tls with the ssl module as a record of outcomes, the stack of TLS layers, every message logged with the layers it goes through; LDAP.start_tls on top of send_extended_request. Proof: case analysis of the wrapping; invariant (layers constant once started_tls) by induction over calls; host names by C38. | partial |
| C75 | Extended requests | Tls, Tls2, Tls3 | Model_Tls: send_extended_request with Model_Controls process_kwds, recv_response from Model_Search. Proof: one exhaustive lemma about the outcome, C24 for the controls. C75_waits_only_for_an_answer: by cases on the call. | partial |
| C76 | A netgroup search finds netgroups | NgSearch | Model_NgSearch on top of Model_Request: the text pasted together, parsed by the modelled grammars. Spec: RFC 4511 three-valued evaluation over arbitrary outcomes of single comparisons; counting parentheses. Proof: standard texts are balanced and comparisons have no parentheses, so the first leaf of any reading of the text is the whole text; exact grammars of C14 and C16. | partial |
| C77 | An object owns the values of its attributes | Object | Model_Object: a heap of lists, objects referring to lists by number, one step per call (including any in-place change of any list). Spec: what each object shows for each name (view). Proof: invariant - every stored list was made for that entry of that object - by induction over histories; each operation then related to views. | partial |
| C78 | Equality of objects is equality of what they hold | Object | Model_Object obj_eq (inherited dict equality over the stored spellings). Proof: dict equality is pointwise equality of stored entries; related to views for tidy objects; two concrete refutations. | partial |
| C79 | Requests are the RFC 4511 messages of their arguments | Wire, Wire2 | Model_Wire: the table of all classes of rfc4511.py (tags as pyasn1 computes them), protocol objects, and each request builder call by call. Spec: Spec_X690 (identifier, length and contents octets as sets of octet strings) and Spec_Wire (the ASN.1 of RFC 4511 appendix B as encoders, written without the table). Proof: the set of encodings of each table class equals that of the RFC type (ber_message); each builder yields the value of the RFC message. | partial |
| C80 | Messages are self-delimiting and unambiguous | Wire | Spec_X690/Spec_Wire encodings. Proof: a general uniqueness theorem for the table (ber_uniq: definite lengths, distinct first tags within each choice and sequence, checked by computation over the table), injectivity of the value of a message, existence by explicit length and integer encodings. | proved |
| C81 | Replies are read as RFC 4511 means them | Reply | Model_Reply: unpack, result codes, response controls, entries, references and extended responses on decoded objects. Spec: Spec_Reply in terms of the RFC messages. Proof: the decoded object of any encoding is the value of the message (C80), then computation; a UTF-8 decoder with the assumed property is constructed. | proved |
| C82 | The shipped schema loads and says what the RFCs say | Std | Model_StdText: the specification strings and class statements of base_schema.py and netgroups.py verbatim; Model_Std constructs the elements from the strings with the parser of Model_Parse and registers them with Model_Registration. Spec_StdTable: one row per class and type with everything inherited written out. Proof: finite checks by vm_compute, once, for the ASCII case; then lemmas that nothing depends on str.lower and str.isdigit beyond ASCII, and C28, C29, C41 for histories. | proved |
| C83 | Validation with the shipped schema | Std | Model_Std.std_validate_object and std_validate_modify: Model_Schema on the loaded registry, with the syntax rules of Model_Syntax, Model_DescSyntax and Model_Guide. Spec: acceptable_object over the rows. Proof: C27 and C30 lemmas with every hypothesis discharged for the shipped schema. | partial |
| C84 | Values are found by the equality rule of their attribute | Std | Model_Std.std_index: get_attribute_type, type_validate, equality (attributetype.py), get_matching_rule, and the rules of Model_Prep. Spec: alike and compared over the rows and a table of how the 18 equality rules compare. Proof: C04 with the rule of the row; C05, C06 for what is sent. | partial |
| C85 | required_attr and allowed_attr | Std | Model_Std.required_attr, allowed_attr. Proof: the memo invariant of C28, then the rows. | partial |
| C86 | Objects without a connection never reach a server | Life | Model_Life: every method of LDAPObject (and the netgroup methods on objects) as a state and trace program over server, connection and object; sessions of any number of objects, with outside changes of the directory and unbind as events. Spec_Life: unconnected, silent_on, offline_error. Proof: a judgement that a program of an object without connection leaves server, trace and connection alone, closed under bind; then induction on the history. | proved |
| C87 | A deleted object is gone for good | Life | Model_Life.m_delete; C86 for what follows. Counterexample for obj(). | partial |
| C88 | An object only touches its own entry and what is below it | Life, Life2 | Judgements over the same programs: all requests at or below the DN; at most one changing request; nothing changing in looking methods; the server state is the fold of the recorded requests; induction on the history with an arbitrary reflexive, transitive reading of being below. C88_find_elsewhere: by cases on the scope of the object. | proved |
| C89 | What an object shows is what is in the directory | Coherent, Coherent2 | Model_Life and Model_Dir over any lawful server (Spec_Dir). Spec_Coherent: coherent, gentle, undisturbed. Proof: the methods of Model_Life do what those of Model_Dir do (Proofs_Life4); a server applies changes looking only at the attributes named, so that the local update computes the same values (apply_agree); induction on the history; renames by rename_agree (only loaded attributes are looked at) and C40. Counterexamples on a concrete lawful server. C89_never_false: Spec_Coherent2 (the values shown and some others are, as a multiset, those of the entry); a server that has a part of the values follows one that has all (apply_sub), deletions because a value matched in the part is matched nowhere else; induction on the history, in both modes. | partial |
| C90 | Netgroup methods of objects | Coherent, Coherent2 | Model_Life.m_netgroup. Spec: the changes of C61 (added, removed, replaced). Proof: has_object_class is right about truthful objects; then C35, C58 with the loaded object as current state, and C89. C90_adds: what the server accepts was new (apply_adds_new), so that what is sent for unloaded attributes has the effect of the smart request. | partial |
| C91 | From the octets the server sends to results | Stream | Model_Stream puts Model_Net, Model_Reply and Model_Search together as net.py and base.py do. Spec_Stream: frames (of a decoder), server_sends, readable, stands_for, end_for. Proof: C20_single_reader_any_chunking with codec_ok_on for the messages sent, the values of messages are determined by their octets (C80, C81), filtering by ID commutes with encoding, C45_all_results_in_order. | proved |
| C92 | Domains and constants as text | Const, Const2 | Model_Const. Spec_Const: labels joined by dots, dc= components joined by commas; tables of words, expressions and numbers. Proof: splitting at a character is the inverse of joining (cut); what the parts may contain; the rest by cases on the words and numbers. | proved |
| C93 | Operations one after the other over the wire | Session | Model_Session puts request building (Model_Wire), readers (Model_Net) and replies (Model_Reply, Model_Stream) together. Spec_Session: ideal (a session as messages), session (the same over octets, with every choice of encodings and chunks), answers_properly (servers). Proof: induction over the session with the invariant that the socket is clean between operations; messages sent are the only ones a server can read (C79, C80); the answers of one request are all that is in the socket, and next_one takes them off one by one; then C81 and C45. | proved |
| C94 | Security layers | Layer | Model_Layer: Model_Net with unwrap after recv and wrap before sendall, both arbitrary functions of a state. Spec_Layer: opens, protects (an ideal layer seen from the receiver), in_step (both ends of a layer). Proof: simulation of Model_Net on the opened pieces; for integrity the invariant that every reader holds octets of whole accepted messages, and that log, queues and readers hold different messages. | partial |
| C95 | Operations one after the other over a secured connection | LSession | Model_LSession: Model_Session on the socket of Model_Layer, one SASL client state for both directions. Spec_LSession: tunnel (the two ends of a layer), sealed (what the server makes of its octets), lsession. Proof: simulation of the readers without a layer that keeps track of the state the layer ends in; then the invariant that between operations everything has been read and both ends are in step. | proved |
| C96 | Opening a connection | Open | Model_Open: the constructor of the socket, with file system, listeners and ssl module as arguments that change from pattern to pattern; the constructor of the connection and the table of shared sockets. Spec_Open: usable, of_no_use, first_usable. Proof: the result as a function of uri_connect (C39); induction on the patterns; TLS from C74; for shared sockets an invariant of the table. | partial |
| C97 | Unsolicited notices | Notice | Reading is Model_Net; Model_Notice adds the text of the exception over decoded objects. Spec_Notice: read_until_notice, what is kept for an ID, the kinds and the advice. Proof: one invariant for the decode loop, the outer loop and a resumed reader: undecoded octets and those to come are the rest of the stream up to the notice and beyond, the queues have grown by what was decoded; induction on the octets, on the reads and on the calls of next. Text: the object is determined by the octets (C81). | proved |
| C98 | Responses of extended operations from the octets | XStream | Model_XStream: the handle over Model_Net and Model_Reply. Spec_XStream: what an object is to show of a message. Proof: all messages of the ID are pulled by one reader (C20), what is made of each by C81; induction on the messages; with C97 for the notice. | proved |
| C99 | The SASL exchange from the octets | SaslWire | Model_SaslWire: one round of the loop of sasl_bind on an arbitrary client process : C -> option octets -> res (option val) * C; the request is Model_Wire.sasl_bind_request packed with the next ID (sasl_send), the answer is read by Model_Net.recv_one and Model_Reply.sasl_result. Spec_SaslWire: says (what an answer means, from its result code, in RFC terms), exchange (the bind as messages: requests, answers, states), on_wire (the same with octets, encodings and chunks chosen by an adversary). C99_exchange: every run on the wire is such an exchange, never hangs and leaves the connection idle; C99_possible: every exchange within the size limits can happen on the wire; C99_one_outcome: encodings and cutting make no difference; C99_in_turn, C99_bound, C99_success, C99_refused: what the list of messages and answers looks like, without reference to exchange. By induction on runs with C79_sasl_bind (request exact), C81_sasl (answer exact), next_one of C93 (reader). C99_ids and C99_then_operations: the IDs are consecutive, and operations afterwards on the same connection go as in C93 with the IDs that follow (session_from from an idle connection at any ID; C99_nonvacuous_operations). | proved |

## What was proved, what was refuted (same notes as MANIFEST.json)

- **C01** (proved) Refinement of a plain map keyed by the folded name for every sequence of operations.
- **C02** (partial) False of the code as stated: re-setting a key under another casing leaves the old spelling enumerable (stale values, duplicate entries, KeyError when copying from another dict, pop). The *_partial theorems give what does hold: every current name is enumerated, and enumeration is exact when no name was written under two spellings. The *_refuted theorems are machine-checked counterexamples.
- **C03** (proved) Exact typing of writes, rejected writes change nothing, update is all-or-nothing, `in` means non-empty.
- **C04** (proved) First match under the rule; ValueError iff absent; in/count/index/remove agree. The clause that an invalid assertion raises ValueError is false (another exception escapes): C04_invalid_assertion_refuted; the property text was corrected accordingly.
- **C05** (proved) Exact modlist, and totality. A value repeated within one request is sent twice (C05_repeated_request_value_refuted): the property is about values of the request relative to the object.
- **C06** (proved) Exact modlist, and totality.
- **C07** (proved) One request with exactly the wanted changes in order, or nothing. Two side findings refute stronger readings (resending a used DELETE_ALL Mod; invalid keywords unnoticed when everything is skipped).
- **C08** (partial) False in general: three machine-checked counterexamples (skipped empty list, clearing an absent attribute, deleting a value twice). Proved under the explicit condition `safe`, against a reference RFC 4511 server.
- **C09** (proved) Second add/delete sends nothing; hypotheses: the equality rule is the one used locally, values are distinct as on a server.
- **C10** (proved) Isolation, ledger (pending/sent), view after commit, exit, rejected commit. The ledger theorem is exact for every history of calls, including failing ones; the *_refuted theorems are machine-checked counterexamples to stronger readings (retry after a rejected commit loses DELETE_ALL, a failing modify stays pending), for re-adding a deleted value with strict_modify off, and for objects written under two spellings.
- **C11** (proved) Uncommitted checkpoints change nothing; committed ones join. C11_failed_checkpoint_commit_refuted: a commit that fails while being applied joins AND stays pending.
- **C12** (proved) All writing methods other than modify, and modify with keywords, raise without effect.
- **C13** (proved) For every input; the comparison is read as itself or not at all, alone or in a conjunction/disjunction.
- **C14** (partial) Exact characterisation of the standard parser, and parse(print f) = f for every valid f except that a final empty "any" part is lost (C14_refuted_trailing_star); C14_reparse_* give the exact result in that case too.
- **C15** (proved) Also for the simple syntax. Follows from exact characterisations of the three parsers.
- **C16** (proved) The parser accepts exactly the renderings of logic expressions, with any spacing, and returns their meaning; unambiguous.
- **C17** (partial) Proved for all short names with options and for OIDs with single-digit arcs; refuted for OIDs with multi-digit arcs (ordered choice in the grammar) and for matching rules whose name starts with dn.
- **C18** (proved) For all strings; NFKC and casefold are arbitrary functions (NFKC assumed not to introduce white space other than U+0020 in the whole-rule theorem).
- **C19** (partial) False of the code: re.match looks at the first character only, the table contains the letter F (typo \u02EF-\u02FFF) and omits U+0350-U+035F. C19_prohibit_exactly_partial gives the exact behaviour relative to the RFC tables for every string.
- **C20** (partial) False of the code without a discipline on readers (five refutations: recv_one drops bytes, interleaved readers corrupt, stale queue reorders, EOF spins, unsolicited drops bytes). Proved for every history in which no undecoded bytes are held by another reader and no stale reader is resumed; for one reader with any chunking; and for recv_one sequences with one message per read.
- **C21** (proved) For every history of sends, including ones that fail to encode after the counter was incremented.
- **C22** (partial) Proved for every history of connects, binds, unbinds and operations: nothing goes out after unbind, no bind request after a successful bind, flags exact. The part "every operation raises ConnectionUnbound" is false for extended operations/abandon (OS error) and modify with an empty modlist (succeeds): C22_refuted_unguarded.
- **C23** (partial) False of the code in general (four refutations: bare host, double unbind, failed constructor, private connection). Proved for every history under the discipline [safe].
- **C24** (partial) Keyword processing itself: exact for all dictionaries, registries and capability sets. "TypeError before anything is sent" fails for extended requests (sent first) and for modify without changes (keywords ignored): C24_refuted_extended_and_empty_modify.
- **C25** (partial) Unambiguity proved for all registration sequences. "A rejected registration leaves the registry unchanged" is false when the response OID is the offending part (C25_refuted_half_registered); proved for controls with only one of the two OIDs.
- **C26** (proved) Exact characterisation for all response control lists; handle() is an arbitrary function per control.
- **C27** (partial) Exact iff for every object, acyclic schema and history of earlier list computations, with attribute names compared exactly and every attribute having a registered type. Outside that the code deviates: case of names, extensibleObject, unknown class OIDs (KeyError), attributes without a type stop the checks (C27_refuted_*).
- **C28** (proved) For every acyclic schema with a fixed set of registered classes and every history of accesses; evaluation ends even for cyclic ones. Stronger readings fail: superclass registered later, unknown superclass OID, cycles (C28_refuted_*).
- **C29** (proved) Exact for chains of any depth. Supertypes nobody registered and supertype cycles make features unavailable (C29_refuted_*).
- **C30** (partial) Exact iff for registered attribute types. Changes without values are never rejected (C30_refuted_delete_all) and an attribute without a type ends the checks (C30_refuted_undefined_attribute).
- **C31** (proved) For all names, nestings and bodies (which may change the list and raise). Re-entering one context object is not restored (C31_refuted_reuse).
- **C32** (partial) Proved: after unfolding the output is the unbroken lines again (for all writable objects), and every physical line but the dn line has at most 76 characters. Refuted: the dn line is never folded.
- **C33** (partial) Proved: exact condition for a literal value, and reading the whole output per RFC 2849 returns DN and all values, provided no text value is a safe string followed by a single line feed. Refuted: such a value is written literally and loses the line feed.
- **C34** (partial) Proved: for every list of well-formed change records (add/delete/modify/moddn with controls, base64 or plain fields, any folding, optional version line) exactly the described operations are attempted in order until one fails; and a record that is refused (no dn or changetype, attribute options, malformed modification or moddn, unknown critical control, ...) stops the run with its exception after exactly the operations of the records before it; comment lines anywhere but after a control line make no difference; additions with any octets in base64 and controls that are passed over (C34_octets_and_unknown_controls_partial); line ends LF or CR LF, for any text (C34_line_ends). Refuted: a second control line of the same kind replaces the first, a comment after a control, a block of comments only, :< in a comment, plain control values (taken for base64), base64 or colon values in modify records, stripped base64 values, :< inside a value, empty line after version, controls without value, content records, form feeds, no check before execution.
- **C35** (partial) Proved: exact meaning of every triple text; exactly the triples without commas (host, user) and closing parenthesis (domain) round-trip; member lists are accepted iff every entry has a documented meaning and become exactly those triples and groups. Refuted: a user name with a comma reads back as another user.
- **C36** (partial) Proved: a recursive lookup that returns has returned exactly the members of all reachable groups; it returns for every acyclic graph (given stack). Refuted: it fails on every graph with a reachable cycle; get_users/get_hosts of a netgroup object always raise.
- **C37** (partial) Reading is exact (C37_read). For any number of add/replace/delete calls with unshared lists, however many of them fail, the shown values follow the calls and after a successful call the entry's descriptions say exactly that, ordinary descriptions are kept, nothing else changes (C37_calls_partial; one-call forms C37_add, C37_replace_partial, C37_delete_partial). Refuted: replace under another spelling leaves the old values; deleting the last description is never sent; keys containing '='; lists shared with the caller (add then delete with the same dict leaves every second value; two objects given one dict contaminate each other); a failed call's change goes out with the next call; descriptions added outside are lost.
- **C38** (partial) The one-label reading of wildcards is false of the code (C38_refuted_wildcard_spans_labels), and so is ignoring other name types (C38_refuted_other_name_types). C38_accepts_exactly_partial is an exact iff for every host and certificate; certificates acceptable under the strict reading are never refused.
- **C39** (partial) Proved for every host part that contains no colon of its own, any scheme and any percent decoder. Outside that the code misbehaves: empty string (IndexError), IPv6 literals (ValueError or wrong host), trailing slash, upper-case scheme (C39_refuted_*).
- **C40** (partial) Proved for every lawful server: objects that show their entry and have plain RDNs keep DN and values in step with the directory under mod_dn, rename and move, and refused requests change nothing; LDAP.move splits at the first comma not in an escape pair unless the RDN ends in a backslash. Refuted: RDN ending in an escaped backslash, RDN with escaped comma (objects), multi-valued RDNs, object without its naming attribute, one-component DN.
- **C41** (partial) Unconditional: an element with an identifier is never registered twice, registered elements resolve under all their identifiers from then on, no binding is replaced, and repeating a successful require() has no effect. Exactly-once (C41_exactly_once_partial) needs: complete and conflict-free declarations, modules imported before being required, package and submodule not both required, package declaring its own elements before importing submodules. Each of these is necessary in the code: counterexamples refute the unrestricted English claim (own elements of a package are silently skipped when a submodule came first; requiring a submodule after its package raises; late declarations ignored; a half-failed require cannot be retried; duplicate syntax rules raise AttributeError).
- **C42** (proved) All three clauses, for every history of object creation, add_extension, attribute reads and registrations, any table of predefined extensions and any importable modules: own attributes win, a name once bound keeps its extension, conflicts are refused without changing names or objects, adding again has no effect, one instance per object and one global instance, added extensions are reachable, built_in_extensions_only is respected. Limits exhibited as refutations of stronger readings: a refused extension has already registered its schema; a NAME equal to a method is accepted but unreachable; set-up failures are misreported and not repeatable.
- **C43** (proved) All dicts over the 23 parameters; str.upper is a parameter (only idempotence of normalisation needs laws of it, satisfied by ASCII upper). KeyError does not undo the known keys: stated in the theorem.
- **C44** (partial) Proved: over all histories in which no add fails a tag stands for the object of the first call with it, used tags are refused without effect. Refuted: an add refused by validators or the server keeps its tag.
- **C45** (partial) Proved for untagged searches that do not fetch references: exactly one item per message in order, stops at the final message; streaming; abandoned searches yield nothing. Refuted: references/referrals are never fetched (connection unbound before reading), tagged search with two entries, iterating a finished search waits, abandon raises AttributeError.
- **C46** (proved) Exact characterisation for all texts: least index closing all opened parentheses, ValueError iff there is none; other first character ValueError, empty text IndexError.
- **C47** (partial) Proved for every RFC 4511 server: get, exists and find give the object, NoSearchResults or MultipleSearchResults for 0, 1, 2 matches. Refuted: three matches raise LDAPError, RDN is put into the filter unescaped, a reference can be returned as the object.
- **C48** (partial) Proved for every lawful server and every dict with values: the three helpers reach the requested state in an existing and an absent entry, return an object showing the entry, touch nothing else, and change nothing when they raise. Refuted for replacing with an empty list.
- **C49** (proved) All outcomes of the recheck for every pair of lists and every server, and of a whole bind: a bind returns only if the list read after the success reply has the same members, or the check is not fatal and a warning was given. Finding proved separately: a detected downgrade leaves the connection bound and makes the new list the baseline, so a second check passes.
- **C50** (partial) The accepted texts are characterised exactly (dialect laurelin of Spec_Parse) with their fields; RFC 4512 texts with upper case keywords, no empty list and at most one extension are read faithfully. Refuted for the full RFC grammar: a second X- extension, an empty name list, keywords in another letter case and nameless attribute types are refused; numbers with leading zeros are accepted; parse_qdescrs alone needs single spaces.
- **C51** (partial) False of the code: backslash and NUL are not escaped, and parsed values are never decoded, so the server receives the escaped text (C51_refuted_*). Proved: for backslash-free input, RFC 4515 decoding of escape(s) gives s, and escape is injective.
- **C52** (partial) Proved for every rule that compares prepared values; false for distinguishedNameMatch (never True) and generalizedTimeMatch (always True).
- **C53** (partial) Unambiguity and the exact success condition proved for all registries; failure is not atomic (C53_refuted_atomic).
- **C54** (partial) Proved: processing the LDIF of a transaction gives exactly its modifications, for plain DNs and values without colons. Refuted: delete-all raises TypeError; values are not encoded, so they can inject modifications.
- **C55** (proved) For all lists of validators and outcomes. An AttributeError raised inside a validator counts as "method missing" (see C27_refuted_undefined_attribute).
- **C56** (partial) Proved: every part of every URI comes out as written or with its default; critical extensions refused. Refuted: URI with another uncritical extension cannot be searched (AttributeError), percent-encoding is not undone.
- **C57** (proved) For all numbers of intermediate responses; iterating again after the final response waits (C57_refuted_after_final).
- **C58** (partial) Proved for every lawful server, in both modes, with and without current, for dicts without empty lists (DELETE_ALL allowed). Refuted: the documented empty list deletes nothing with the default settings.
- **C59** (partial) Proved: refresh (attributes the entry has), refresh_missing, has_object_class. Refuted: attributes removed on the server survive refresh().
- **C60** (proved) For every lawful server.
- **C61** (proved) For every lawful server and every list with documented meanings: add, replace and delete change exactly the named triples and groups, and succeed when the server is willing; malformed lists change nothing. Deletion is about entries that hold no two equal values, as RFC 4512 (2.2) demands of every entry.
- **C62** (partial) Order, stopping, no-connection and file type proved for all configurations and environments. REFUTED for the extensions section: LDAP.activate_extension does not exist, so any configuration naming an extension (as in the documented example) raises AttributeError after the global section was applied.
- **C63** (partial) Success, credential safety, refusals, objects proved for every configuration and every environment; liveness partial (explicit base_dn, no validators; the own liveness of the constructor, C64_live is general). REFUTED: a second use of the same dict yields a connection without StartTLS or bind (the keys are popped from the caller dict); default_filter_syntax, documented, can never be used; a schema/validator entry cannot be used a second time (C63_refuted_entry_twice).
- **C64** (partial) Settings, global reach and keyword refusal proved for all 22 parameters. Transport settings proved when the socket is not shared; REFUTED for shared sockets: the registry is keyed by URI only, so ssl_verify=True may run on a socket opened without verification.
- **C65** (proved) For every argument dict, default and root DSE; undetermined case raises LDAPError.
- **C66** (partial) Exact characterisation of what each of 25 rules accepts (text and bytes), for every set order; 10 rules exact w.r.t. the RFC, 6 up to a final newline, the others with the stated differences. The full claim is refuted: Integer 0, teletex/videotex, short phone numbers, teletex values, empty DN/value and leading = are refused; final newline, leading zeros, unescaped trailing space, escaped NUL, junk after a substring assertion or name are accepted.
- **C67** (partial) Every RFC value with an object class is accepted; what is accepted is characterised exactly; outcomes are listed. Refuted: a Guide without object class is refused, empty criteria and anything after a term are accepted, unmatched parentheses raise ValueError.
- **C68** (proved) Complete description of every terminating bind against an arbitrary server and SASL library (both functions of the history), any number of challenges; control keyword handling and puresasl enter by outcome; wrapping of traffic not modelled.
- **C69** (partial) The accepted texts are characterised exactly for all eight syntaxes and every text; descriptions of RFC 4512 with upper case keywords, at most one extension after single spaces, no empty list, no OBSOLETE in DIT rules and no MAY in content rules are accepted. The full claim is refuted for every one of the syntaxes, in both directions.
- **C70** (partial) Complete for requests, defaults, refusals and errors; refuted for four keywords (dn, self, ldap_conn, attrs_dict) that are accepted and sent, after which every entry found raises TypeError. What the simple and unified syntaxes mean is C15/C16.
- **C71** (partial) Inheritance at any depth, DNs, requests and errors in full; that find in a subtree scope looks for the object with that RDN is proved for RDNs that are one attribute and a valid filter value, and refuted for values with stars, DN escapes and multi-valued RDNs. Results themselves are C45.
- **C72** (partial) Proved for all conforming servers, sizes and numbers of pages, given that the ASN.1 library decodes what was encoded and cookies survive the way to text and back (shown for BER and ISO 8859-1); refuted otherwise: a cookie that cannot be read ends the loop silently, and a server that ignores the control gives an AttributeError.
- **C73** (partial) One object per OID for all histories; by name as well, and found exactly as registered, for all histories in which every registration of a matching rule succeeded and only registered classes are instantiated by hand; refuted otherwise: a refused registration leaves its OID registered, and asking for it takes over the name of the other rule, or fails the first time and succeeds the second; a duplicate syntax rule raises AttributeError.
- **C74** (partial) Verification, settings, order, once only, and protection of everything sent after a successful start_tls are proved for every history and every TLS library (that CERT_REQUIRED checks the chain is a hypothesis on it). Refuted: after a failed host name check the connection stays usable with that peer; an unreadable CA file leaves it in clear text after the server agreed to TLS; an intermediate response counts as agreement.
- **C75** (partial) Requests, refusals and the answer to who_am_i proved for all arguments; refuted: an unknown keyword is noticed after the request was sent; who_am_i takes an intermediate response for the answer.
- **C76** (partial) The request and, for the standard syntax and for all text that closes no parenthesis it has not opened (escaped input in particular), the conjunction are proved for every text; accepted for every sequence of standard filters. Refuted: text closing the parenthesis opened for it returns other entries; filters with AND, OR, NOT are refused, and all filters under the simple syntax.
- **C77** (partial) Ownership, non-aliasing and the effect of every operation proved for all histories; copies of whole objects for objects that list what they look up (all objects, if names are always spelled in one way). Refuted: setdefault on an absent attribute returns a list that is not the stored one, so appending to it is lost, for every object and history; update with DELETE_ALL raises TypeError after writing the entries before it.
- **C78** (partial) Equivalence relation for all histories; equal iff same DN and values for objects listing what they look up and spelling names alike. Refuted otherwise: cn and CN with the same values are unequal; objects with stale spellings compare equal and give different values for the same name.
- **C79** (partial) Proved exactly (sent if and only if encodable) for bind, SASL bind, unbind, abandon, search, delete, mod_dn, modify and extended requests with any controls; compare for text arguments and add with at least one value per attribute. Refuted: bytes given to compare are sent as their Python repr, for every bytes value; add accepts and sends attributes without values, which are no RFC 4511 messages.
- **C80** (proved) Unique decoding of messages and streams for all encodings; existence of encodings up to lengths of 256^126; discharges the codec hypothesis of C20 for any encoder and decoder of RFC 4511 messages.
- **C81** (proved) For every message and every encoding. Entries with distinct attribute types and UTF-8 names; control OIDs in ASCII (as the RFC has them); what a control handler sees of an absent value is a parameter.
- **C82** (proved) For every str.lower and str.isdigit that agree with ASCII, every set of reserved keywords, any later history. Rows (Spec_StdTable) written out by hand from the specification texts and checked against the loaded schema by computation inside the proofs.
- **C83** (partial) Exact for all objects (distinct names, any memo history), all modifications. Refuted: names are case-sensitive (x500UniqueIdentifier and dITContentRules refused under their registered names), RFC synonyms and operational attributes are refused, extensibleObject allows nothing. Values are text.
- **C84** (partial) Exact for all attributes whose rule compares prepared values or literally, and unregistered ones. Refuted: DN values are never found (delete_attrs sends nothing, add_attrs sends everything again), every time is found at position 0, attributes without equality rule raise LDAPSchemaError.
- **C85** (partial) For every schema without cycles and for the shipped classes, any memo history. Refuted: validation does not agree with allowed_attr for extensibleObject.
- **C86** (proved) For every method, argument and history of a session with any number of objects. The error is RuntimeError for most methods but AttributeError for add_attrs, delete_attrs, validate and validate_modify, and LDAPError for obj with a tag (finding); the table is in Spec_Life.
- **C87** (partial) Deletion, refusal and every later history proved. Refuted: obj() on a deleted object returns a child named rdn,None.
- **C88** (proved) For every method, argument, server and history. The server is assumed to answer reads and searches with entries from where it was asked (session theorem only). Controls left out; every method of LDAPObject and the netgroup methods included.
- **C89** (partial) Proved for every history in which the object is used gently (Spec_Coherent.gentle: attributes changed through modify are loaded, no removal of unloaded attributes, no renames, refresh_all or local assignment) and nothing else changes the entry; renames and moves between plain RDNs keep the object in step if the attribute of the new RDN is loaded or absent (C89_renamed_partial). Refuted: modify with ADD of an unloaded attribute, add_attrs under strict_modify, rename with an unloaded RDN attribute; replace_attrs with DELETE_ALL of an unloaded attribute raises KeyError after the change. Where that fails a weaker statement is proved in both modes: after any history of additions, replacements and removals the object shows no value that is not in its entry (C89_never_false_partial).
- **C90** (partial) For every server, object, member list; delete for entries holding no two equal values (RFC 4512, 2.2). Refuted for delete under strict_modify: with the members not loaded it returns without having deleted anything. Adding is proved in both modes, and for objects that hold only some of the values (C90_adds).
- **C91** (proved) For a reader of its own on a fresh connection, and searches without tag that neither fetch references nor follow referrals (these: C45, C46, C48); the decoder is assumed to take apart the messages sent (one exists: C91_decoder_exists). Composes C20, C45, C80 and C81.
- **C92** (proved) Arguments are texts (for the constants: enumerated values with a number). str.upper, str.lower and repr of text are arbitrary.
- **C93** (proved) For a bound connection without SASL layer; searches without tag that neither fetch references nor follow referrals and are read to the end; adding with a value for every attribute (without: C79_refuted_add_empty); the server sends nothing but answers. C93_sessions_exist: such sessions take place for all calls and servers within the sizes and ranges of the RFC.
- **C94** (partial) Everything but the last sentence is proved for every layer and every history. The last sentence is refuted: buffers are not put together from several reads, so one longer than the 4096 octets a read returns is never opened, nor one that is cut (C94_refuted_long_buffers). That a layer protects integrity (accepts only the next buffer of the server) is the assumption on the SASL library; message distinctness stands for positions in the stream.
- **C95** (proved) Composes C93 and C94. As in C93: searches without tag that neither fetch references nor follow referrals and are read to the end; adding with a value for every attribute; the server sends nothing but answers. That a buffer arrives in one read is part of the property as stated (without: C94_refuted_long_buffers).
- **C96** (partial) Refuted parts: the time allowed for connecting over TCP stays as the limit of every later wait (C96_refuted_timeout_stays); two servers that match the third pattern are not found (C96_refuted_several_servers); a connection that asks for verification shares a socket opened without (C96_refuted_shared_socket; if all ask for it: C96_all_verified_partial). All else is proved. That the ssl module checks chains is the hypothesis honest; sockets leave the table of shared ones as in C21.
- **C97** (proved) The message boundaries are those of C20 (codec_ok_on). How much of what came after the notice is lost is not part of the property: C20_refuted_unsolicited_drops_bytes. The text of a result code and of a missing value are parameters (they differ between versions of pyasn1).
- **C98** (proved) As in C91: one reader, a decoder that frames the messages (exists: C91_decoder_exists; with a notice: C98_nonvacuous_notice), control OIDs in ASCII as RFC 4511 has them. The request is that of C79. That who_am_i takes an intermediate response for the answer is in C75.
- **C99** (proved) The rounds of sasl_bind on real messages: requests of Model_Wire, reader of Model_Net, answers of Model_Reply; any SASL client and any server of one answer per request, any encoding and chunking. The checks of mechanisms before and after are C49 and C68; wrap and unwrap are the identity until a layer is negotiated (layers: C94, C95).

## Trusted base

- Coq 8.16.1's kernel, including `vm_compute` (used for concrete witnesses and
  for a few checks of finite tables).
- `Print Assumptions` of every property theorem says "Closed under the global
  context": no theorem rests on any axiom. (vcheck lists seven
  `Coq.ssr.ssrunder.Under_rel.*` constants: they belong to a module type of the
  standard library that is loaded with `lia`'s Zify plugin; no theorem uses them.)
- The reading of /repo into `Model_*.v` (cited line by line) and the fragment of
  Python in `PyBase.v`: strings as lists of code points, dicts as
  insertion-ordered association lists, exceptions as values; Python 3.
- `Spec_PrepTable.v` was transcribed from the tables of CPython's `stringprep`
  module (RFC 3454), `Model_PrepTable.v` from /repo/laurelin/ldap/rfc4518.py.
- The specifications `Spec_*.v` as readings of RFC 2849, 4511, 4512, 4514, 4515,
  4517, 4518 and of the project's documentation.

## What is modelled, by source file

| file | modelled | not modelled |
|---|---|---|
| ldap/base.py | constructor and its settings; base DN choice; start_tls, simple_bind, sasl_bind, unbind as events; start_tls, send_extended_request and who_am_i in full (Model_Tls); recheck_sasl_mechs; tags, obj, get, exists, search replies; compare, add, delete, mod_dn, rename, move, modify and the attribute helpers; validators; controls of requests; process_ldif; result handles; LDAPURI | log messages, `repr`; the ASN.1 objects of requests (values instead); the actual bytes of requests other than LDIF |
| ldap/net.py | host URI parsing, connection target, hostname check, message IDs, recv_messages / recv_one with chunking and queues, reference counts, SASL client state, start_tls (Model_Tls); the constructor with the search for local sockets (Model_Open); SASL wrapping (Model_Layer); the text of unsolicited messages (Model_Notice); extended responses from the socket (Model_XStream) | the ssl module, the file system and TCP themselves (arguments) |
| ldap/ldapobject.py | mapping behaviour and equality, values, find, get_child, refresh, local updates, format_ldif, transactions and checkpoints, format_mod_ldif, moves | `__repr__`, LDIF of non-text attribute names |
| ldap/filter.py | the three grammars as parser functions, the handlers, the printer, escape | parsimonious itself (memoisation has no effect; error positions) |
| ldap/modify.py, attrvaluelist.py, attrsdict.py, attributetype.py, objectclass.py, schema.py, validation.py | whole behaviour | warnings |
| ldap/rfc4512.py, rfc4514.py | every pattern that is used, as syntax trees over a backtracking matcher | numbered group of noidlen; `re`'s limits |
| ldap/rfc4518.py, rules.py | all steps and matching rules; registration, lookup and instances | NFKC and casefold themselves (parameters) |
| ldap/controls.py | keyword processing, registration, response handling | the two concrete ASN.1 values |
| ldap/config.py, constants.py, utils.py, exceptions.py | loading, mapping and using configurations; helpers | YAML and JSON decoders (arbitrary outcome) |
| ldap/extensible/* | registration in two steps, activation, require | documentation-only attributes |
| extensions/base_schema.py | all syntax rules with code, matching rules, Guide criteria, and the texts of all object classes and attribute types (Model_StdText) | docstrings |
| extensions/descattrs.py, netgroups.py | whole behaviour | user_in_netgroup-style lookups only through their lists |
| extensions/pagedresults.py | whole control, the documented loop | ASN.1 encoding (a parameter) |
| ldap/rfc4511.py | all classes with tags, components and constraints (Model_Wire) | commented-out constraints on text |
| ldap/protoutils.py | pack, unpack, seq_to_list, get_string_component, parse_qdescrs | logging |

Simplifications per topic (also in the header comment of each Model file):

- Ldif: decoders are parameters (instances `utf8_strict`, `b64_lenient`).
- Dir: a server is a state machine; theorems assume a `lawful` (does what RFC 4511
  says when it answers success, changes nothing otherwise) and sometimes a
  `willing` (does not refuse) server; `ex_server` is an instance of both.
- Netgroups: `find` is a static function during one recursive lookup; the
  recursion limit is the depth parameter.
- Desc: lists live in a heap; requests are plain dicts of string lists; the order
  of a set is an arbitrary permutation.
- Registration: the ten dictionaries are one association list; an element is what
  register() reads of it.
- Extensible: a module is its name, its body a list of registration events run on
  first import; the table of predefined extensions is arbitrary but fixed.
- Config: a decoded configuration is a record of its four sections; network and
  server are an arbitrary record of outcomes.
- Parse/Regex: patterns as syntax trees, unbounded backtracking, int() without
  digit limit.
- Syntax: match objects are not kept; set order arbitrary.
- Guide: recursion limit = depth parameter.
- DescSyntax: as Syntax.
- Notice: the texts of result codes and of missing values are parameters.
- XStream: log messages, for which names of responses are read as text, are left out.
- NgSearch: those of Request; the attribute lists of the class nisNetgroup are given.
- Object: list elements are str, bytes or other; a list number that was never made is empty; object numbers that were never made raise NameError (no such variable); names looked up are str.
- Wire: pyasn1 is not in the repository; its rules for tags (tagImplicitly, tagExplicitly), components and constraints are modelled as its documentation states, its encoder as producing some X.690 definite-length encoding of the object (which of them, e.g. the octet for TRUE, is left open) and its decoder as relating octets to objects of the table.
- Reply: a decoded object always is a value; an OID that is not ASCII raises before other controls are handled.
- Tls: the ssl module is a record of outcomes (a hypothesis says that CERT_REQUIRED checks the
  chain); whether a failed handshake closes the socket is one of them; SASL wrapping is left out.
- Rules: a class is its identity, OID and name; str.lower and str.isdigit are parameters.
- Paged: pyasn1 (not in the sources) is four parameters with a round-trip law; no referrals or
  references in answers; the loop is the one of the extension's documentation.
- Std: attribute values are text; the class attribute _oidsyntax etc. of rules are those of the class statements; elements of one kind are numbered in definition order.
- Life: as Dir (controls left out, values are strings, answers are success or an error); tags only present or absent; keywords of relative methods left out (Request has them); objects are numbered in the order they are returned.
- Open: file system, listeners and ssl module are arguments; an attempt is accepted, refused or ends in another exception; socket numbers left out.
- Request: sending succeeds; text and integer arguments only; keyword values are strings.
- Sasl: server = function of the events so far; puresasl = choose/process functions.

## Findings (all machine-checked as `..._refuted...` or as exact characterisations)

- Attribute dictionaries keep stale spellings (C02); objects and server drift apart
  after empty lists, clearing absent attributes, double deletes (C08, C58).
- Filters: backslash and NUL not escaped, values never decoded (C51); multi-digit
  OIDs refused (C17); trailing star lost (C14).
- String preparation looks at the first character only, forbids the letter F (C19).
- Sockets: bytes dropped or reordered when a reader is abandoned (C20); reference
  counting wrong for bare hosts, double unbind, failed constructors (C23); shared
  sockets ignore TLS settings (C64); wildcards span labels (C38); after a detected
  SASL downgrade the connection stays bound and the new list becomes the baseline (C49).
- LDIF: dn line not folded, trailing newline lost, many misread records (C32-C34, C54).
- Netgroups: commas in names change the user; cyclic groups never end (C35, C36).
- Descriptions: aliasing with the caller's lists, lost last deletion (C37).
- Configuration: the extensions section always raises AttributeError; using a
  configuration dict twice loses StartTLS and bind; default_filter_syntax unusable;
  unknown key leaves known ones applied (C43, C62-C64).
- Schema descriptions: second X- extension, empty name list, lower-case keywords and
  nameless attribute types refused; leading zeros accepted (C50).
- Syntax rules: final newline accepted by patterns ending in a dollar sign; Integer 0,
  teletex/videotex, 911, most Teletex strings, empty DN refused; SubstringAssertion and
  NameAndOptionalUID not anchored (C66); Guide without object class refused, empty
  criteria accepted, unmatched parentheses raise ValueError (C67).
- Description syntaxes: DIT content rules cannot have MAY, OBSOLETE in DIT rules needs two
  spaces after it, only one extension after exactly one space, matching rules may have any
  list of names as syntax (C69).
- Searches: keywords dn, self, ldap_conn and attrs_dict are accepted and sent, then every
  entry found is a TypeError (C70); find with a subtree scope uses the RDN as a filter: stars
  match other objects, escaped RDNs are LDAPErrors, multi-valued RDNs are never found (C71).
- Paged results: an unreadable cookie looks like the last page; page_cookie is missing when
  the server ignores the control (C72).
- Rules: a refused registration of a matching rule leaves its OID registered; asking for it takes
  over the other rule's name, or raises once and then succeeds; a duplicate syntax rule raises
  AttributeError instead of LDAPSchemaError (C73).
- TLS: after a failed host name check, or a failure to load the CA file, the connection goes on:
  with the unverified peer, or in clear text; an intermediate response is taken for consent (C74);
  who_am_i takes an intermediate response for the answer (C75).
- netgroups.search: the filter text is pasted into a conjunction and parsed in the unified syntax, so text that
  closes the parenthesis opened for it (`(cn=a)) OR ((cn=b)`) finds entries that are not netgroups; filters written
  with AND, OR or NOT are refused, and with default_filter_syntax=SIMPLE every netgroup search is (C76).
- LDAPObject.setdefault returns the default passed (or a new list), not the value list stored: appending to the result
  of `o.setdefault('mail')` on an absent attribute is lost (C77). `update` accepts DELETE_ALL in its validation but not
  in its assignment, so it raises TypeError half way (C77). Objects differing in the case of attribute names are
  unequal, and objects with stale spellings can be equal although they give different values (C78).
- compare passes its value through six.text_type: bytes are compared as the text b'...' (C79_refuted_compare_bytes).
- add sends attributes with empty value lists, which RFC 4511 (SIZE (1..MAX)) forbids (C79_refuted_add_empty); the class Attribute has the constraint only in a comment.
- simple_bind with a name and an empty password is sent: an unauthenticated bind, which RFC 4513 5.1.2 says clients should disallow (C79_unauthenticated_bind_sent).
- rfc4511.py: Referral lacks SIZE (1..MAX); ResultCode misspells subtypeSpec, so that its values are not constrained; Present asks for a constructed tag, which pyasn1 does not take over. None of these changes what is sent.
- inetOrgPerson lists x500uniqueIdentifier, subschema ditContentRules, documentSeries telephonenumber: objects with these attributes under their registered names x500UniqueIdentifier, dITContentRules, telephoneNumber are refused (C83_refuted_spelling, C83_refuted_names). None of the synonyms of RFC 4519 (commonName, surname, userid, ...) is registered (C83_refuted_synonyms).
- Objects fetched with operational attributes are never valid; an extensibleObject may have no attribute but objectClass (C83_refuted_extensible, C85_refuted_validation_agrees).
- DN-valued attributes (member, owner, manager, seeAlso, ...): delete_attrs sends no value of them, add_attrs sends all of them again; in, index and remove never find one (C84_refuted_dn, C84_refuted_dn_modifications). Attributes without equality rule raise LDAPSchemaError on lookup.
- Objects without a connection: add_attrs, delete_attrs, validate and validate_modify raise AttributeError (NoneType has no attribute ...) instead of the RuntimeError of the other methods (C86_raises); obj() on a deleted object returns an object named rdn,None (C87_refuted_obj).
- Partly loaded objects: after modify with ADD of an attribute that is not loaded, add_attrs under strict_modify, or a rename with the RDN attribute not loaded, the object shows only the new value although the entry has the old ones too, and later minimal modifications are computed from that (C89_refuted_modify_add, C89_refuted_strict_add, C89_refuted_rename); replace_attrs with DELETE_ALL of such an attribute changes the directory and then raises KeyError (C89_refuted_error_after_change).

## Seeded bugs

`seeded/LOG.jsonl` has one line per wrong program tried (an edit of a model
definition in a scratch copy, rebuilt): the definition, the edit, the English claim
it breaks, the theorems or lemmas whose proofs failed, and theorems tightened when
an edit survived.
