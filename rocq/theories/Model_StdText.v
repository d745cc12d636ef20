(** * The schema elements shipped with laurelin, verbatim
    /repo/laurelin/extensions/base_schema.py:50-1623, netgroups.py:97-121: the attributes of the
    two LaurelinSchema classes in definition order, each with its specification text as it
    stands in the source (line breaks and indentation included), or, for rule classes, their
    OID, NAME and SYNTAX and which of the modelled validate() or prepare()/do_match() methods
    they have.  Each entry carries its lines.  DESC of rules is not kept: nothing but error
    messages uses it. *)
From Verif Require Import PyBase Model_Syntax Model_DescSyntax.
From Coq Require Import String.
Local Open Scope string_scope.

(** validate() of a syntax rule: Model_Syntax (rules), Model_DescSyntax (descriptions),
    Model_Guide, and the pattern of netgroups.py:89 *)
Inductive impl := ISyntax (r : rule) | IDescription (d : drule) | IEnhancedGuide | IGuide | ITriple.
(** prep_methods and do_match of an equality rule (Model_Prep): none and ==, the four tuples
    with ==, or one of the two classes overriding do_match *)
Inductive compare := CPlain | CExact | CIgnore | CNumeric | CPhone | CDn | CTime.
Inductive raw :=
| RClass (extensible : bool) (spec : string)          (* ObjectClass or ExtensibleObjectClass *)
| RType (spec : string)                               (* AttributeType *)
| RSyntax (oid : string) (i : impl)                   (* a SyntaxRule class *)
| RMatching (oid name syntax : string) (c : compare). (* an EqualityMatchingRule class *)

(** class LaurelinSchema: base_schema.py:50-1623 *)
Definition base_schema_text : list (string * raw) := [
  (* base_schema.py:53-53 *)
  ("TOP", RClass false "( 2.5.6.0 NAME 'top' ABSTRACT MUST objectClass )");
  (* base_schema.py:57-61 *)
  ("ALIAS", RClass false "
          ( 2.5.6.1 NAME 'alias'
            SUP top STRUCTURAL
            MUST aliasedObjectName )
    ");
  (* base_schema.py:63-68 *)
  ("ALIASED_OBJECT_NAME", RType "
          ( 2.5.4.1 NAME 'aliasedObjectName'
            EQUALITY distinguishedNameMatch
            SYNTAX 1.3.6.1.4.1.1466.115.121.1.12
            SINGLE-VALUE )
    ");
  (* base_schema.py:72-76 *)
  ("OBJECT_CLASS", RType "
          ( 2.5.4.0 NAME 'objectClass'
            EQUALITY objectIdentifierMatch
            SYNTAX 1.3.6.1.4.1.1466.115.121.1.38 )
    ");
  (* base_schema.py:78-84 *)
  ("CREATORS_NAME", RType "
          ( 2.5.18.3 NAME 'creatorsName'
            EQUALITY distinguishedNameMatch
            SYNTAX 1.3.6.1.4.1.1466.115.121.1.12
            SINGLE-VALUE NO-USER-MODIFICATION
            USAGE directoryOperation )
    ");
  (* base_schema.py:86-93 *)
  ("CREATE_TIMESTAMP", RType "
          ( 2.5.18.1 NAME 'createTimestamp'
            EQUALITY generalizedTimeMatch
            ORDERING generalizedTimeOrderingMatch
            SYNTAX 1.3.6.1.4.1.1466.115.121.1.24
            SINGLE-VALUE NO-USER-MODIFICATION
            USAGE directoryOperation )
    ");
  (* base_schema.py:95-101 *)
  ("MODIFIERS_NAME", RType "
          ( 2.5.18.4 NAME 'modifiersName'
            EQUALITY distinguishedNameMatch
            SYNTAX 1.3.6.1.4.1.1466.115.121.1.12
            SINGLE-VALUE NO-USER-MODIFICATION
            USAGE directoryOperation )
    ");
  (* base_schema.py:103-110 *)
  ("MODIFY_TIMESTAMP", RType "
          ( 2.5.18.2 NAME 'modifyTimestamp'
            EQUALITY generalizedTimeMatch
            ORDERING generalizedTimeOrderingMatch
            SYNTAX 1.3.6.1.4.1.1466.115.121.1.24
            SINGLE-VALUE NO-USER-MODIFICATION
            USAGE directoryOperation )
    ");
  (* base_schema.py:112-118 *)
  ("STRUCTURAL_OBJECT_CLASS", RType "
          ( 2.5.21.9 NAME 'structuralObjectClass'
            EQUALITY objectIdentifierMatch
            SYNTAX 1.3.6.1.4.1.1466.115.121.1.38
            SINGLE-VALUE NO-USER-MODIFICATION
            USAGE directoryOperation )
    ");
  (* base_schema.py:120-126 *)
  ("GOVERNING_STRUCTURAL_RULE", RType "
          ( 2.5.21.10 NAME 'governingStructureRule'
            EQUALITY integerMatch
            SYNTAX 1.3.6.1.4.1.1466.115.121.1.27
            SINGLE-VALUE NO-USER-MODIFICATION
            USAGE directoryOperation )
    ");
  (* base_schema.py:130-136 *)
  ("SUBSCHEMA_SUBENTRY", RType "
          ( 2.5.18.10 NAME 'subschemaSubentry'
            EQUALITY distinguishedNameMatch
            SYNTAX 1.3.6.1.4.1.1466.115.121.1.12
            SINGLE-VALUE NO-USER-MODIFICATION
            USAGE directoryOperation )
    ");
  (* base_schema.py:138-144 *)
  ("SUBSCHEMA", RClass false "
          ( 2.5.20.1 NAME 'subschema' AUXILIARY
            MAY ( dITStructureRules $ nameForms $ ditContentRules $
              objectClasses $ attributeTypes $ matchingRules $
              matchingRuleUse ) )

    ");
  (* base_schema.py:146-151 *)
  ("OBJECT_CLASSES", RType "
          ( 2.5.21.6 NAME 'objectClasses'
            EQUALITY objectIdentifierFirstComponentMatch
            SYNTAX 1.3.6.1.4.1.1466.115.121.1.37
            USAGE directoryOperation )
    ");
  (* base_schema.py:153-158 *)
  ("ATTRIBUTE_TYPES", RType "
          ( 2.5.21.5 NAME 'attributeTypes'
            EQUALITY objectIdentifierFirstComponentMatch
            SYNTAX 1.3.6.1.4.1.1466.115.121.1.3
            USAGE directoryOperation )
    ");
  (* base_schema.py:160-165 *)
  ("MATCHING_RULES", RType "
          ( 2.5.21.4 NAME 'matchingRules'
            EQUALITY objectIdentifierFirstComponentMatch
            SYNTAX 1.3.6.1.4.1.1466.115.121.1.30
            USAGE directoryOperation )
    ");
  (* base_schema.py:167-172 *)
  ("MATCHING_RULES_USE", RType "
          ( 2.5.21.8 NAME 'matchingRuleUse'
            EQUALITY objectIdentifierFirstComponentMatch
            SYNTAX 1.3.6.1.4.1.1466.115.121.1.31
            USAGE directoryOperation )
    ");
  (* base_schema.py:174-179 *)
  ("LDAP_SYNTAXES", RType "
          ( 1.3.6.1.4.1.1466.101.120.16 NAME 'ldapSyntaxes'
            EQUALITY objectIdentifierFirstComponentMatch
            SYNTAX 1.3.6.1.4.1.1466.115.121.1.54
            USAGE directoryOperation )
    ");
  (* base_schema.py:181-186 *)
  ("DIT_CONTENT_RULES", RType "
          ( 2.5.21.2 NAME 'dITContentRules'
            EQUALITY objectIdentifierFirstComponentMatch
            SYNTAX 1.3.6.1.4.1.1466.115.121.1.16
            USAGE directoryOperation )
    ");
  (* base_schema.py:188-193 *)
  ("DIT_STRUCTURE_RULES", RType "
          ( 2.5.21.1 NAME 'dITStructureRules'
            EQUALITY integerFirstComponentMatch
            SYNTAX 1.3.6.1.4.1.1466.115.121.1.17
            USAGE directoryOperation )
    ");
  (* base_schema.py:195-200 *)
  ("NAME_FORMS", RType "
          ( 2.5.21.7 NAME 'nameForms'
            EQUALITY objectIdentifierFirstComponentMatch
            SYNTAX 1.3.6.1.4.1.1466.115.121.1.35
            USAGE directoryOperation )
    ");
  (* base_schema.py:204-207 *)
  ("EXTENSIBLE_OBJECT", RClass true "
          ( 1.3.6.1.4.1.1466.101.120.111 NAME 'extensibleObject'
                  SUP top AUXILIARY )
    ");
  (* base_schema.py:212-217 *)
  ("ALT_SERVER", RType "
          ( 1.3.6.1.4.1.1466.101.120.6 NAME 'altServer'
            EQUALITY caseExactMatch
            SYNTAX 1.3.6.1.4.1.1466.115.121.1.26
            USAGE dSAOperation )
    ");
  (* base_schema.py:219-224 *)
  ("NAMING_CONTEXTS", RType "
          ( 1.3.6.1.4.1.1466.101.120.5 NAME 'namingContexts'
            EQUALITY distinguishedNameMatch
            SYNTAX 1.3.6.1.4.1.1466.115.121.1.12
            USAGE dSAOperation )
    ");
  (* base_schema.py:226-231 *)
  ("SUPPORTED_CONTROL", RType "
          ( 1.3.6.1.4.1.1466.101.120.13 NAME 'supportedControl'
            EQUALITY objectIdentifierMatch
            SYNTAX 1.3.6.1.4.1.1466.115.121.1.38
            USAGE dSAOperation )
    ");
  (* base_schema.py:233-238 *)
  ("SUPPORTED_EXTENSION", RType "
          ( 1.3.6.1.4.1.1466.101.120.7 NAME 'supportedExtension'
            EQUALITY objectIdentifierMatch
            SYNTAX 1.3.6.1.4.1.1466.115.121.1.38
            USAGE dSAOperation )
    ");
  (* base_schema.py:240-245 *)
  ("SUPPORTED_FEATURES", RType "
          ( 1.3.6.1.4.1.4203.1.3.5 NAME 'supportedFeatures'
              EQUALITY objectIdentifierMatch
              SYNTAX 1.3.6.1.4.1.1466.115.121.1.38
              USAGE dSAOperation )
    ");
  (* base_schema.py:247-252 *)
  ("SUPPORTED_LDAP_VERSION", RType "
          ( 1.3.6.1.4.1.1466.101.120.15 NAME 'supportedLDAPVersion'
            EQUALITY integerMatch
            SYNTAX 1.3.6.1.4.1.1466.115.121.1.27
            USAGE dSAOperation )
    ");
  (* base_schema.py:254-259 *)
  ("SUPPORTED_SASL_MECHANISMS", RType "
          ( 1.3.6.1.4.1.1466.101.120.14 NAME 'supportedSASLMechanisms'
            EQUALITY caseIgnoreMatch
            SYNTAX 1.3.6.1.4.1.1466.115.121.1.15
            USAGE dSAOperation )
    ");
  (* base_schema.py:263-268 *)
  ("BUSINESS_CATEGORY", RType "
          ( 2.5.4.15 NAME 'businessCategory'
             EQUALITY caseIgnoreMatch
             SUBSTR caseIgnoreSubstringsMatch
             SYNTAX 1.3.6.1.4.1.1466.115.121.1.15 )
    ");
  (* base_schema.py:270-275 *)
  ("C", RType "
          ( 2.5.4.6 NAME 'c'
             SUP name
             SYNTAX 1.3.6.1.4.1.1466.115.121.1.11
             SINGLE-VALUE )
    ");
  (* base_schema.py:277-280 *)
  ("CN", RType "
          ( 2.5.4.3 NAME 'cn'
             SUP name )
    ");
  (* base_schema.py:282-288 *)
  ("DC", RType "
          ( 0.9.2342.19200300.100.1.25 NAME 'dc'
             EQUALITY caseIgnoreIA5Match
             SUBSTR caseIgnoreIA5SubstringsMatch
             SYNTAX 1.3.6.1.4.1.1466.115.121.1.26
             SINGLE-VALUE )
    ");
  (* base_schema.py:290-295 *)
  ("DESCRIPTION", RType "
          ( 2.5.4.13 NAME 'description'
             EQUALITY caseIgnoreMatch
             SUBSTR caseIgnoreSubstringsMatch
             SYNTAX 1.3.6.1.4.1.1466.115.121.1.15 )
    ");
  (* base_schema.py:297-302 *)
  ("DESTINATION_INDICATOR", RType "
          ( 2.5.4.27 NAME 'destinationIndicator'
             EQUALITY caseIgnoreMatch
             SUBSTR caseIgnoreSubstringsMatch
             SYNTAX 1.3.6.1.4.1.1466.115.121.1.44 )
    ");
  (* base_schema.py:304-308 *)
  ("DISTINGUISHED_NAME", RType "
          ( 2.5.4.49 NAME 'distinguishedName'
             EQUALITY distinguishedNameMatch
             SYNTAX 1.3.6.1.4.1.1466.115.121.1.12 )
    ");
  (* base_schema.py:310-316 *)
  ("DN_QUALIFIER", RType "
          ( 2.5.4.46 NAME 'dnQualifier'
             EQUALITY caseIgnoreMatch
             ORDERING caseIgnoreOrderingMatch
             SUBSTR caseIgnoreSubstringsMatch
             SYNTAX 1.3.6.1.4.1.1466.115.121.1.44 )
    ");
  (* base_schema.py:318-321 *)
  ("ENHANCED_SEARCH_GUIDE", RType "
          ( 2.5.4.47 NAME 'enhancedSearchGuide'
             SYNTAX 1.3.6.1.4.1.1466.115.121.1.21 )
    ");
  (* base_schema.py:323-326 *)
  ("FACSIMILIE_TELEPHONE_NUMBER", RType "
          ( 2.5.4.23 NAME 'facsimileTelephoneNumber'
             SYNTAX 1.3.6.1.4.1.1466.115.121.1.22 )
    ");
  (* base_schema.py:328-331 *)
  ("GENERATION_QUALIFIER", RType "
          ( 2.5.4.44 NAME 'generationQualifier'
             SUP name )
    ");
  (* base_schema.py:333-336 *)
  ("GIVEN_NAME", RType "
          ( 2.5.4.42 NAME 'givenName'
             SUP name )
    ");
  (* base_schema.py:338-343 *)
  ("HOUSE_IDENTIFIER", RType "
          ( 2.5.4.51 NAME 'houseIdentifier'
             EQUALITY caseIgnoreMatch
             SUBSTR caseIgnoreSubstringsMatch
             SYNTAX 1.3.6.1.4.1.1466.115.121.1.15 )
    ");
  (* base_schema.py:345-348 *)
  ("INITIALS", RType "
          ( 2.5.4.43 NAME 'initials'
             SUP name )
    ");
  (* base_schema.py:350-355 *)
  ("INTERNATIONAL_ISDN_NUMBER", RType "
          ( 2.5.4.25 NAME 'internationalISDNNumber'
             EQUALITY numericStringMatch
             SUBSTR numericStringSubstringsMatch
             SYNTAX 1.3.6.1.4.1.1466.115.121.1.36 )
    ");
  (* base_schema.py:357-360 *)
  ("L", RType "
          ( 2.5.4.7 NAME 'l'
             SUP name )
    ");
  (* base_schema.py:362-365 *)
  ("MEMBER", RType "
          ( 2.5.4.31 NAME 'member'
             SUP distinguishedName )
    ");
  (* base_schema.py:367-372 *)
  ("NAME", RType "
          ( 2.5.4.41 NAME 'name'
             EQUALITY caseIgnoreMatch
             SUBSTR caseIgnoreSubstringsMatch
             SYNTAX 1.3.6.1.4.1.1466.115.121.1.15 )
    ");
  (* base_schema.py:374-377 *)
  ("O", RType "
          ( 2.5.4.10 NAME 'o'
             SUP name )
    ");
  (* base_schema.py:379-382 *)
  ("OU", RType "
          ( 2.5.4.11 NAME 'ou'
             SUP name )
    ");
  (* base_schema.py:384-387 *)
  ("OWNER", RType "
          ( 2.5.4.32 NAME 'owner'
             SUP distinguishedName )
    ");
  (* base_schema.py:389-394 *)
  ("PHYSICAL_DELIVERY_OFFICE_NAME", RType "
          ( 2.5.4.19 NAME 'physicalDeliveryOfficeName'
             EQUALITY caseIgnoreMatch
             SUBSTR caseIgnoreSubstringsMatch
             SYNTAX 1.3.6.1.4.1.1466.115.121.1.15 )
    ");
  (* base_schema.py:396-401 *)
  ("POSTAL_ADDRESS", RType "
          ( 2.5.4.16 NAME 'postalAddress'
             EQUALITY caseIgnoreListMatch
             SUBSTR caseIgnoreListSubstringsMatch
             SYNTAX 1.3.6.1.4.1.1466.115.121.1.41 )
    ");
  (* base_schema.py:403-408 *)
  ("POSTAL_CODE", RType "
          ( 2.5.4.17 NAME 'postalCode'
             EQUALITY caseIgnoreMatch
             SUBSTR caseIgnoreSubstringsMatch
             SYNTAX 1.3.6.1.4.1.1466.115.121.1.15 )
    ");
  (* base_schema.py:410-415 *)
  ("POST_OFFICE_BOX", RType "
          ( 2.5.4.18 NAME 'postOfficeBox'
             EQUALITY caseIgnoreMatch
             SUBSTR caseIgnoreSubstringsMatch
             SYNTAX 1.3.6.1.4.1.1466.115.121.1.15 )
    ");
  (* base_schema.py:417-421 *)
  ("PREFERRED_DELIVERY_METHOD", RType "
          ( 2.5.4.28 NAME 'preferredDeliveryMethod'
             SYNTAX 1.3.6.1.4.1.1466.115.121.1.14
             SINGLE-VALUE )
    ");
  (* base_schema.py:423-427 *)
  ("REGISTERED_ADDRESS", RType "
          ( 2.5.4.26 NAME 'registeredAddress'
             SUP postalAddress
             SYNTAX 1.3.6.1.4.1.1466.115.121.1.41 )
    ");
  (* base_schema.py:429-432 *)
  ("ROLE_OCCUPANT", RType "
          ( 2.5.4.33 NAME 'roleOccupant'
             SUP distinguishedName )
    ");
  (* base_schema.py:434-437 *)
  ("SEARCH_GUIDE", RType "
          ( 2.5.4.14 NAME 'searchGuide'
             SYNTAX 1.3.6.1.4.1.1466.115.121.1.25 )
    ");
  (* base_schema.py:439-442 *)
  ("SEE_ALSO", RType "
          ( 2.5.4.34 NAME 'seeAlso'
             SUP distinguishedName )
    ");
  (* base_schema.py:444-449 *)
  ("SERIAL_NUMBER", RType "
          ( 2.5.4.5 NAME 'serialNumber'
             EQUALITY caseIgnoreMatch
             SUBSTR caseIgnoreSubstringsMatch
             SYNTAX 1.3.6.1.4.1.1466.115.121.1.44 )
    ");
  (* base_schema.py:451-454 *)
  ("SN", RType "
          ( 2.5.4.4 NAME 'sn'
             SUP name )
    ");
  (* base_schema.py:456-459 *)
  ("ST", RType "
          ( 2.5.4.8 NAME 'st'
             SUP name )
    ");
  (* base_schema.py:461-466 *)
  ("STREET", RType "
          ( 2.5.4.9 NAME 'street'
             EQUALITY caseIgnoreMatch
             SUBSTR caseIgnoreSubstringsMatch
             SYNTAX 1.3.6.1.4.1.1466.115.121.1.15 )
    ");
  (* base_schema.py:468-473 *)
  ("TELEPHONE_NUMBER", RType "
          ( 2.5.4.20 NAME 'telephoneNumber'
             EQUALITY telephoneNumberMatch
             SUBSTR telephoneNumberSubstringsMatch
             SYNTAX 1.3.6.1.4.1.1466.115.121.1.50 )
    ");
  (* base_schema.py:475-478 *)
  ("TELETEX_TERMINAL_IDENTIFIER", RType "
          ( 2.5.4.22 NAME 'teletexTerminalIdentifier'
             SYNTAX 1.3.6.1.4.1.1466.115.121.1.51 )
    ");
  (* base_schema.py:480-483 *)
  ("TELEX_NUMBER", RType "
          ( 2.5.4.21 NAME 'telexNumber'
             SYNTAX 1.3.6.1.4.1.1466.115.121.1.52 )
    ");
  (* base_schema.py:485-488 *)
  ("TITLE", RType "
          ( 2.5.4.12 NAME 'title'
             SUP name )
    ");
  (* base_schema.py:490-495 *)
  ("UID", RType "
          ( 0.9.2342.19200300.100.1.1 NAME 'uid'
             EQUALITY caseIgnoreMatch
             SUBSTR caseIgnoreSubstringsMatch
             SYNTAX 1.3.6.1.4.1.1466.115.121.1.15 )
    ");
  (* base_schema.py:497-501 *)
  ("UNIQUE_MEMBER", RType "
          ( 2.5.4.50 NAME 'uniqueMember'
             EQUALITY uniqueMemberMatch
             SYNTAX 1.3.6.1.4.1.1466.115.121.1.34 )
    ");
  (* base_schema.py:503-507 *)
  ("USER_PASSWORD", RType "
          ( 2.5.4.35 NAME 'userPassword'
             EQUALITY octetStringMatch
             SYNTAX 1.3.6.1.4.1.1466.115.121.1.40 )
    ");
  (* base_schema.py:509-514 *)
  ("X121_ADDRESS", RType "
          ( 2.5.4.24 NAME 'x121Address'
             EQUALITY numericStringMatch
             SUBSTR numericStringSubstringsMatch
             SYNTAX 1.3.6.1.4.1.1466.115.121.1.36 )
    ");
  (* base_schema.py:516-520 *)
  ("X500_UNIQUE_IDENTIFIER", RType "
          ( 2.5.4.45 NAME 'x500UniqueIdentifier'
             EQUALITY bitStringMatch
             SYNTAX 1.3.6.1.4.1.1466.115.121.1.6 )
    ");
  (* base_schema.py:524-533 *)
  ("APPLICATION_PROCESS", RClass false "
          ( 2.5.6.11 NAME 'applicationProcess'
             SUP top
             STRUCTURAL
             MUST cn
             MAY ( seeAlso $
                   ou $
                   l $
                   description ) )
    ");
  (* base_schema.py:535-542 *)
  ("COUNTRY", RClass false "
          ( 2.5.6.2 NAME 'country'
             SUP top
             STRUCTURAL
             MUST c
             MAY ( searchGuide $
                   description ) )
    ");
  (* base_schema.py:544-549 *)
  ("DC_OBJECT", RClass false "
          ( 1.3.6.1.4.1.1466.344 NAME 'dcObject'
             SUP top
             AUXILIARY
             MUST dc )
    ");
  (* base_schema.py:551-563 *)
  ("DEVICE", RClass false "
          ( 2.5.6.14 NAME 'device'
             SUP top
             STRUCTURAL
             MUST cn
             MAY ( serialNumber $
                   seeAlso $
                   owner $
                   ou $
                   o $
                   l $
                   description ) )
    ");
  (* base_schema.py:565-577 *)
  ("GROUP_OF_NAMES", RClass false "
          ( 2.5.6.9 NAME 'groupOfNames'
             SUP top
             STRUCTURAL
             MUST ( member $
                   cn )
             MAY ( businessCategory $
                   seeAlso $
                   owner $
                   ou $
                   o $
                   description ) )
    ");
  (* base_schema.py:579-591 *)
  ("GROUP_OF_UNIQUE_NAMES", RClass false "
          ( 2.5.6.17 NAME 'groupOfUniqueNames'
             SUP top
             STRUCTURAL
             MUST ( uniqueMember $
                   cn )
             MAY ( businessCategory $
                   seeAlso $
                   owner $
                   ou $
                   o $
                   description ) )
    ");
  (* base_schema.py:593-603 *)
  ("LOCALITY", RClass false "
          ( 2.5.6.3 NAME 'locality'
             SUP top
             STRUCTURAL
             MAY ( street $
                   seeAlso $
                   searchGuide $
                   st $
                   l $
                   description ) )
    ");
  (* base_schema.py:605-618 *)
  ("ORGANIZATION", RClass false "
          ( 2.5.6.4 NAME 'organization'
             SUP top
             STRUCTURAL
             MUST o
             MAY ( userPassword $ searchGuide $ seeAlso $
                   businessCategory $ x121Address $ registeredAddress $
                   destinationIndicator $ preferredDeliveryMethod $
                   telexNumber $ teletexTerminalIdentifier $
                   telephoneNumber $ internationalISDNNumber $
                   facsimileTelephoneNumber $ street $ postOfficeBox $
                   postalCode $ postalAddress $ physicalDeliveryOfficeName $
                   st $ l $ description ) )
    ");
  (* base_schema.py:620-631 *)
  ("ORGANIZATIONAL_PERSON", RClass false "
          ( 2.5.6.7 NAME 'organizationalPerson'
             SUP person
             STRUCTURAL
             MAY ( title $ x121Address $ registeredAddress $
                   destinationIndicator $ preferredDeliveryMethod $
                   telexNumber $ teletexTerminalIdentifier $
                   telephoneNumber $ internationalISDNNumber $
                   facsimileTelephoneNumber $ street $ postOfficeBox $
                   postalCode $ postalAddress $ physicalDeliveryOfficeName $
                   ou $ st $ l ) )
    ");
  (* base_schema.py:633-646 *)
  ("ORGANIZATIONAL_ROLE", RClass false "
          ( 2.5.6.8 NAME 'organizationalRole'
             SUP top
             STRUCTURAL
             MUST cn
             MAY ( x121Address $ registeredAddress $ destinationIndicator $
                   preferredDeliveryMethod $ telexNumber $
                   teletexTerminalIdentifier $ telephoneNumber $
                   internationalISDNNumber $ facsimileTelephoneNumber $
                   seeAlso $ roleOccupant $ preferredDeliveryMethod $
                   street $ postOfficeBox $ postalCode $ postalAddress $
                   physicalDeliveryOfficeName $ ou $ st $ l $
                   description ) )
    ");
  (* base_schema.py:648-660 *)
  ("ORGANIZATIONAL_UNIT", RClass false "
          ( 2.5.6.5 NAME 'organizationalUnit'
             SUP top
             STRUCTURAL
             MUST ou
             MAY ( businessCategory $ description $ destinationIndicator $
                   facsimileTelephoneNumber $ internationalISDNNumber $ l $
                   physicalDeliveryOfficeName $ postalAddress $ postalCode $
                   postOfficeBox $ preferredDeliveryMethod $
                   registeredAddress $ searchGuide $ seeAlso $ st $ street $
                   telephoneNumber $ teletexTerminalIdentifier $
                   telexNumber $ userPassword $ x121Address ) )
    ");
  (* base_schema.py:662-671 *)
  ("PERSON", RClass false "
          ( 2.5.6.6 NAME 'person'
             SUP top
             STRUCTURAL
             MUST ( sn $
                   cn )
             MAY ( userPassword $
                   telephoneNumber $
                   seeAlso $ description ) )
    ");
  (* base_schema.py:673-685 *)
  ("RESIDENTIAL_PERSON", RClass false "
          ( 2.5.6.10 NAME 'residentialPerson'
             SUP person
             STRUCTURAL
             MUST l
             MAY ( businessCategory $ x121Address $ registeredAddress $
                   destinationIndicator $ preferredDeliveryMethod $
                   telexNumber $ teletexTerminalIdentifier $
                   telephoneNumber $ internationalISDNNumber $
                   facsimileTelephoneNumber $ preferredDeliveryMethod $
                   street $ postOfficeBox $ postalCode $ postalAddress $
                   physicalDeliveryOfficeName $ st $ l ) )
    ");
  (* base_schema.py:687-692 *)
  ("UID_OBJECT", RClass false "
          ( 1.3.6.1.1.3.1 NAME 'uidObject'
             SUP top
             AUXILIARY
             MUST uid )
    ");
  (* base_schema.py:696-702 *)
  ("CAR_LICENSE", RType "
        ( 2.16.840.1.113730.3.1.1 NAME 'carLicense'
          DESC 'vehicle license or registration plate'
          EQUALITY caseIgnoreMatch
          SUBSTR caseIgnoreSubstringsMatch
          SYNTAX 1.3.6.1.4.1.1466.115.121.1.15 )
    ");
  (* base_schema.py:704-711 *)
  ("DEPARTMENT_NUMBER", RType "
        ( 2.16.840.1.113730.3.1.2
          NAME 'departmentNumber'
          DESC 'identifies a department within an organization'
          EQUALITY caseIgnoreMatch
          SUBSTR caseIgnoreSubstringsMatch
          SYNTAX 1.3.6.1.4.1.1466.115.121.1.15 )
    ");
  (* base_schema.py:713-721 *)
  ("DISPLAY_NAME", RType "
      ( 2.16.840.1.113730.3.1.241
        NAME 'displayName'
        DESC 'preferred name of a person to be used when displaying entries'
        EQUALITY caseIgnoreMatch
        SUBSTR caseIgnoreSubstringsMatch
        SYNTAX 1.3.6.1.4.1.1466.115.121.1.15
        SINGLE-VALUE )
    ");
  (* base_schema.py:723-731 *)
  ("EMPLOYEE_NUMBER", RType "
        ( 2.16.840.1.113730.3.1.3
          NAME 'employeeNumber'
          DESC 'numerically identifies an employee within an organization'
          EQUALITY caseIgnoreMatch
          SUBSTR caseIgnoreSubstringsMatch
          SYNTAX 1.3.6.1.4.1.1466.115.121.1.15
          SINGLE-VALUE )
    ");
  (* base_schema.py:733-740 *)
  ("EMPLOYEE_TYPE", RType "
        ( 2.16.840.1.113730.3.1.4
          NAME 'employeeType'
          DESC 'type of employment for a person'
          EQUALITY caseIgnoreMatch
          SUBSTR caseIgnoreSubstringsMatch
          SYNTAX 1.3.6.1.4.1.1466.115.121.1.15 )
    ");
  (* base_schema.py:742-747 *)
  ("JPEG_PHOTO", RType "
        ( 0.9.2342.19200300.100.1.60
          NAME 'jpegPhoto'
          DESC 'a JPEG image'
          SYNTAX 1.3.6.1.4.1.1466.115.121.1.28 )
    ");
  (* base_schema.py:749-757 *)
  ("PREFERRED_LANGUAGE", RType "
        ( 2.16.840.1.113730.3.1.39
          NAME 'preferredLanguage'
          DESC 'preferred written or spoken language for a person'
          EQUALITY caseIgnoreMatch
          SUBSTR caseIgnoreSubstringsMatch
          SYNTAX 1.3.6.1.4.1.1466.115.121.1.15
          SINGLE-VALUE )
    ");
  (* base_schema.py:759-764 *)
  ("USER_SMIME_CERTIFICATE", RType "
        ( 2.16.840.1.113730.3.1.40
          NAME 'userSMIMECertificate'
          DESC 'PKCS#7 SignedData used to support S/MIME'
          SYNTAX 1.3.6.1.4.1.1466.115.121.1.5 )
    ");
  (* base_schema.py:766-771 *)
  ("USER_PKCS12", RType "
    ( 2.16.840.1.113730.3.1.216
      NAME 'userPKCS12'
      DESC 'PKCS #12 PFX PDU for exchange of personal identity information'
      SYNTAX 1.3.6.1.4.1.1466.115.121.1.5 )
    ");
  (* base_schema.py:775-799 *)
  ("INET_ORG_PERSON", RClass false "
    ( 2.16.840.1.113730.3.2.2
        NAME 'inetOrgPerson'
        SUP organizationalPerson
        STRUCTURAL
        MUST (
            cn $ objectClass $ sn
        )
        MAY (
            audio $ businessCategory $ carLicense $ departmentNumber $
            displayName $ employeeNumber $ employeeType $ givenName $
            homePhone $ homePostalAddress $ initials $ jpegPhoto $
            labeledURI $ mail $ manager $ mobile $ o $ pager $
            photo $ roomNumber $ secretary $ uid $ userCertificate $
            x500uniqueIdentifier $ preferredLanguage $
            userSMIMECertificate $ userPKCS12 $
            description $ destinationIndicator $ facsimileTelephoneNumber $
            internationaliSDNNumber $ l $ ou $ physicalDeliveryOfficeName $
            postalAddress $ postalCode $ postOfficeBox $
            preferredDeliveryMethod $ registeredAddress $ seeAlso $
            st $ street $ telephoneNumber $ teletexTerminalIdentifier $
            telexNumber $ title $ userPassword $ x121Address
        )
    )
    ");
  (* base_schema.py:803-807 *)
  ("USER_CERTIFICATE", RType "
        ( 2.5.4.36
          NAME 'userCertificate'
          SYNTAX 1.3.6.1.4.1.1466.115.121.1.8 )
    ");
  (* base_schema.py:811-816 *)
  ("AUDIO", RType "
        ( 0.9.2342.19200300.100.1.55
          NAME 'audio'
          EQUALITY octetStringMatch
          SYNTAX 1.3.6.1.4.1.1466.115.121.1.40{250000} )
    ");
  (* base_schema.py:820-825 *)
  ("PHOTO", RType "
        ( 0.9.2342.19200300.100.1.7
          NAME 'photo'
          EQUALITY octetStringMatch
          SYNTAX 1.3.6.1.4.1.1466.115.121.1.5 )
    ");
  (* base_schema.py:829-835 *)
  ("LABELED_URI", RType "
        ( 1.3.6.1.4.1.250.1.57
          NAME 'labeledURI'
          EQUALITY caseExactMatch
          SUBSTR caseExactSubstringsMatch
          SYNTAX 1.3.6.1.4.1.1466.115.121.1.15 )
    ");
  (* base_schema.py:839-844 *)
  ("ASSOCIATED_DOMAIN", RType "
          ( 0.9.2342.19200300.100.1.37 NAME 'associatedDomain'
            EQUALITY caseIgnoreIA5Match
            SUBSTR caseIgnoreIA5SubstringsMatch
            SYNTAX 1.3.6.1.4.1.1466.115.121.1.26 )
    ");
  (* base_schema.py:846-850 *)
  ("ASSOCIATED_NAME", RType "
          ( 0.9.2342.19200300.100.1.38 NAME 'associatedName'
            EQUALITY distinguishedNameMatch
            SYNTAX 1.3.6.1.4.1.1466.115.121.1.12 )
    ");
  (* base_schema.py:852-857 *)
  ("BUILDING_NAME", RType "
          ( 0.9.2342.19200300.100.1.48 NAME 'buildingName'
            EQUALITY caseIgnoreMatch
            SUBSTR caseIgnoreSubstringsMatch
            SYNTAX 1.3.6.1.4.1.1466.115.121.1.15{256} )
    ");
  (* base_schema.py:859-864 *)
  ("CO", RType "
          ( 0.9.2342.19200300.100.1.43 NAME 'co'
            EQUALITY caseIgnoreMatch
            SUBSTR caseIgnoreSubstringsMatch
            SYNTAX 1.3.6.1.4.1.1466.115.121.1.15 )
    ");
  (* base_schema.py:866-870 *)
  ("DOCUMENT_AUTHOR", RType "
          ( 0.9.2342.19200300.100.1.14 NAME 'documentAuthor'
            EQUALITY distinguishedNameMatch
            SYNTAX 1.3.6.1.4.1.1466.115.121.1.12 )
    ");
  (* base_schema.py:872-877 *)
  ("DOCUMENT_IDENTIFIER", RType "
          ( 0.9.2342.19200300.100.1.11 NAME 'documentIdentifier'
            EQUALITY caseIgnoreMatch
            SUBSTR caseIgnoreSubstringsMatch
            SYNTAX 1.3.6.1.4.1.1466.115.121.1.15{256} )
    ");
  (* base_schema.py:879-884 *)
  ("DOCUMENT_LOCATION", RType "
          ( 0.9.2342.19200300.100.1.15 NAME 'documentLocation'
            EQUALITY caseIgnoreMatch
            SUBSTR caseIgnoreSubstringsMatch
            SYNTAX 1.3.6.1.4.1.1466.115.121.1.15{256} )
    ");
  (* base_schema.py:886-891 *)
  ("DOCUMENT_PUBLISHER", RType "
          ( 0.9.2342.19200300.100.1.56 NAME 'documentPublisher'
            EQUALITY caseIgnoreMatch
            SUBSTR caseIgnoreSubstringsMatch
            SYNTAX 1.3.6.1.4.1.1466.115.121.1.15 )
    ");
  (* base_schema.py:893-898 *)
  ("DOCUMENT_TITLE", RType "
          ( 0.9.2342.19200300.100.1.12 NAME 'documentTitle'
            EQUALITY caseIgnoreMatch
            SUBSTR caseIgnoreSubstringsMatch
            SYNTAX 1.3.6.1.4.1.1466.115.121.1.15{256} )
    ");
  (* base_schema.py:900-905 *)
  ("DOCUMENT_VERSION", RType "
          ( 0.9.2342.19200300.100.1.13 NAME 'documentVersion'
            EQUALITY caseIgnoreMatch
            SUBSTR caseIgnoreSubstringsMatch
            SYNTAX 1.3.6.1.4.1.1466.115.121.1.15{256} )
    ");
  (* base_schema.py:907-912 *)
  ("DRINK", RType "
          ( 0.9.2342.19200300.100.1.5 NAME 'drink'
            EQUALITY caseIgnoreMatch
            SUBSTR caseIgnoreSubstringsMatch
            SYNTAX 1.3.6.1.4.1.1466.115.121.1.15{256} )
    ");
  (* base_schema.py:914-919 *)
  ("HOME_PHONE", RType "
          ( 0.9.2342.19200300.100.1.20 NAME 'homePhone'
            EQUALITY telephoneNumberMatch
            SUBSTR telephoneNumberSubstringsMatch
            SYNTAX 1.3.6.1.4.1.1466.115.121.1.50 )
    ");
  (* base_schema.py:921-926 *)
  ("HOME_POSTAL_ADDRESS", RType "
          ( 0.9.2342.19200300.100.1.39 NAME 'homePostalAddress'
            EQUALITY caseIgnoreListMatch
            SUBSTR caseIgnoreListSubstringsMatch
            SYNTAX 1.3.6.1.4.1.1466.115.121.1.41 )
    ");
  (* base_schema.py:928-933 *)
  ("HOST", RType "
          ( 0.9.2342.19200300.100.1.9 NAME 'host'
            EQUALITY caseIgnoreMatch
            SUBSTR caseIgnoreSubstringsMatch
            SYNTAX 1.3.6.1.4.1.1466.115.121.1.15{256} )
    ");
  (* base_schema.py:935-940 *)
  ("INFO", RType "
          ( 0.9.2342.19200300.100.1.4 NAME 'info'
            EQUALITY caseIgnoreMatch
            SUBSTR caseIgnoreSubstringsMatch
            SYNTAX 1.3.6.1.4.1.1466.115.121.1.15{2048} )
    ");
  (* base_schema.py:942-947 *)
  ("MAIL", RType "
          ( 0.9.2342.19200300.100.1.3 NAME 'mail'
            EQUALITY caseIgnoreIA5Match
            SUBSTR caseIgnoreIA5SubstringsMatch
            SYNTAX 1.3.6.1.4.1.1466.115.121.1.26{256} )
    ");
  (* base_schema.py:949-953 *)
  ("MANAGER", RType "
          ( 0.9.2342.19200300.100.1.10 NAME 'manager'
            EQUALITY distinguishedNameMatch
            SYNTAX 1.3.6.1.4.1.1466.115.121.1.12 )
    ");
  (* base_schema.py:955-960 *)
  ("MOBILE", RType "
          ( 0.9.2342.19200300.100.1.41 NAME 'mobile'
            EQUALITY telephoneNumberMatch
            SUBSTR telephoneNumberSubstringsMatch
            SYNTAX 1.3.6.1.4.1.1466.115.121.1.50 )
    ");
  (* base_schema.py:962-967 *)
  ("ORGANIZATIONAL_STATUS", RType "
          ( 0.9.2342.19200300.100.1.45 NAME 'organizationalStatus'
            EQUALITY caseIgnoreMatch
            SUBSTR caseIgnoreSubstringsMatch
            SYNTAX 1.3.6.1.4.1.1466.115.121.1.15{256} )
    ");
  (* base_schema.py:969-974 *)
  ("PAGER", RType "
          ( 0.9.2342.19200300.100.1.42 NAME 'pager'
            EQUALITY telephoneNumberMatch
            SUBSTR telephoneNumberSubstringsMatch
            SYNTAX 1.3.6.1.4.1.1466.115.121.1.50 )
    ");
  (* base_schema.py:976-981 *)
  ("PERSONAL_TITLE", RType "
          ( 0.9.2342.19200300.100.1.40 NAME 'personalTitle'
            EQUALITY caseIgnoreMatch
            SUBSTR caseIgnoreSubstringsMatch
            SYNTAX 1.3.6.1.4.1.1466.115.121.1.15{256} )
    ");
  (* base_schema.py:983-988 *)
  ("ROOM_NUMBER", RType "
          ( 0.9.2342.19200300.100.1.6 NAME 'roomNumber'
            EQUALITY caseIgnoreMatch
            SUBSTR caseIgnoreSubstringsMatch
            SYNTAX 1.3.6.1.4.1.1466.115.121.1.15{256} )
    ");
  (* base_schema.py:990-994 *)
  ("SECRETARY", RType "
          ( 0.9.2342.19200300.100.1.21 NAME 'secretary'
            EQUALITY distinguishedNameMatch
            SYNTAX 1.3.6.1.4.1.1466.115.121.1.12 )
    ");
  (* base_schema.py:996-1001 *)
  ("UNIQUE_IDENTIFIER", RType "
          ( 0.9.2342.19200300.100.1.44 NAME 'uniqueIdentifier'
            EQUALITY caseIgnoreMatch
            SUBSTR caseIgnoreSubstringsMatch
            SYNTAX 1.3.6.1.4.1.1466.115.121.1.15{256} )
    ");
  (* base_schema.py:1003-1008 *)
  ("USER_CLASS", RType "
          ( 0.9.2342.19200300.100.1.8 NAME 'userClass'
            EQUALITY caseIgnoreMatch
            SUBSTR caseIgnoreSubstringsMatch
            SYNTAX 1.3.6.1.4.1.1466.115.121.1.15{256} )
    ");
  (* base_schema.py:1012-1017 *)
  ("ACCOUNT", RClass false "
          ( 0.9.2342.19200300.100.4.5 NAME 'account'
            SUP top STRUCTURAL
            MUST uid
            MAY ( description $ seeAlso $ l $ o $ ou $ host ) )
    ");
  (* base_schema.py:1019-1026 *)
  ("DOCUMENT", RClass false "
          ( 0.9.2342.19200300.100.4.6 NAME 'document'
            SUP top STRUCTURAL
            MUST documentIdentifier
            MAY ( cn $ description $ seeAlso $ l $ o $ ou $
              documentTitle $ documentVersion $ documentAuthor $
              documentLocation $ documentPublisher ) )
    ");
  (* base_schema.py:1028-1034 *)
  ("DOCUMENT_SERIES", RClass false "
          ( 0.9.2342.19200300.100.4.9 NAME 'documentSeries'
            SUP top STRUCTURAL
            MUST cn
            MAY ( description $ l $ o $ ou $ seeAlso $
              telephonenumber ) )
    ");
  (* base_schema.py:1036-1048 *)
  ("DOMAIN", RClass false "
          ( 0.9.2342.19200300.100.4.13 NAME 'domain'
            SUP top STRUCTURAL
            MUST dc
            MAY ( userPassword $ searchGuide $ seeAlso $ businessCategory $
              x121Address $ registeredAddress $ destinationIndicator $
              preferredDeliveryMethod $ telexNumber $
              teletexTerminalIdentifier $ telephoneNumber $
              internationaliSDNNumber $ facsimileTelephoneNumber $ street $
              postOfficeBox $ postalCode $ postalAddress $
              physicalDeliveryOfficeName $ st $ l $ description $ o $
              associatedName ) )
    ");
  (* base_schema.py:1050-1054 *)
  ("DOMAIN_RELATED_OBJECT", RClass false "
          ( 0.9.2342.19200300.100.4.17 NAME 'domainRelatedObject'
            SUP top AUXILIARY
            MUST associatedDomain )
    ");
  (* base_schema.py:1056-1060 *)
  ("FRIENDLY_COUNTRY", RClass false "
          ( 0.9.2342.19200300.100.4.18 NAME 'friendlyCountry'
            SUP country STRUCTURAL
            MUST co )
    ");
  (* base_schema.py:1062-1071 *)
  ("RFC822_LOCAL_PORT", RClass false "
          ( 0.9.2342.19200300.100.4.14 NAME 'rFC822localPart'
            SUP domain STRUCTURAL
            MAY ( cn $ description $ destinationIndicator $
              facsimileTelephoneNumber $ internationaliSDNNumber $
              physicalDeliveryOfficeName $ postalAddress $ postalCode $
              postOfficeBox $ preferredDeliveryMethod $ registeredAddress $
              seeAlso $ sn $ street $ telephoneNumber $
              teletexTerminalIdentifier $ telexNumber $ x121Address ) )
    ");
  (* base_schema.py:1073-1078 *)
  ("ROOM", RClass false "
          ( 0.9.2342.19200300.100.4.7 NAME 'room'
            SUP top STRUCTURAL
            MUST cn
            MAY ( roomNumber $ description $ seeAlso $ telephoneNumber ) )
    ");
  (* base_schema.py:1080-1084 *)
  ("SIMPLE_SECURITY_OBJECT", RClass false "
          ( 0.9.2342.19200300.100.4.19 NAME 'simpleSecurityObject'
            SUP top AUXILIARY
            MUST userPassword )
    ");
  (* base_schema.py:1089-1095 *)
  ("Binary", RSyntax "1.3.6.1.4.1.1466.115.121.1.5" (ISyntax Binary));
  (* base_schema.py:1097-1103 *)
  ("Certificate", RSyntax "1.3.6.1.4.1.1466.115.121.1.8" (ISyntax Certificate));
  (* base_schema.py:1110-1113 *)
  ("AttributeTypeDescription", RSyntax "1.3.6.1.4.1.1466.115.121.1.3" (IDescription AttributeTypeDescription));
  (* base_schema.py:1115-1118 *)
  ("BitString", RSyntax "1.3.6.1.4.1.1466.115.121.1.6" (ISyntax BitString));
  (* base_schema.py:1120-1126 *)
  ("Boolean", RSyntax "1.3.6.1.4.1.1466.115.121.1.7" (ISyntax Boolean));
  (* base_schema.py:1128-1131 *)
  ("CountryString", RSyntax "1.3.6.1.4.1.1466.115.121.1.11" (ISyntax CountryString));
  (* base_schema.py:1133-1137 *)
  ("DeliveryMethod", RSyntax "1.3.6.1.4.1.1466.115.121.1.14" (ISyntax DeliveryMethod));
  (* base_schema.py:1139-1145 *)
  ("DirectoryString", RSyntax "1.3.6.1.4.1.1466.115.121.1.15" (ISyntax DirectoryString));
  (* base_schema.py:1147-1150 *)
  ("DITContentRuleDescription", RSyntax "1.3.6.1.4.1.1466.115.121.1.16" (IDescription DITContentRuleDescription));
  (* base_schema.py:1152-1155 *)
  ("DITStructureRuleDescription", RSyntax "1.3.6.1.4.1.1466.115.121.1.17" (IDescription DITStructureRuleDescription));
  (* base_schema.py:1157-1160 *)
  ("DistinguishedName", RSyntax "1.3.6.1.4.1.1466.115.121.1.12" (ISyntax DistinguishedName));
  (* base_schema.py:1162-1264 *)
  ("EnhancedGuide", RSyntax "1.3.6.1.4.1.1466.115.121.1.21" (IEnhancedGuide));
  (* base_schema.py:1266-1286 *)
  ("FacsimilieTelephoneNumber", RSyntax "1.3.6.1.4.1.1466.115.121.1.22" (ISyntax FacsimileTelephoneNumber));
  (* base_schema.py:1288-1295 *)
  ("Fax", RSyntax "1.3.6.1.4.1.1466.115.121.1.23" (ISyntax Fax));
  (* base_schema.py:1297-1344 *)
  ("GeneralizedTime", RSyntax "1.3.6.1.4.1.1466.115.121.1.24" (ISyntax GeneralizedTime));
  (* base_schema.py:1346-1358 *)
  ("Guide", RSyntax "1.3.6.1.4.1.1466.115.121.1.25" (IGuide));
  (* base_schema.py:1360-1363 *)
  ("IA5String", RSyntax "1.3.6.1.4.1.1466.115.121.1.26" (ISyntax IA5String));
  (* base_schema.py:1365-1368 *)
  ("Integer", RSyntax "1.3.6.1.4.1.1466.115.121.1.27" (ISyntax Integer));
  (* base_schema.py:1370-1380 *)
  ("JPEG", RSyntax "1.3.6.1.4.1.1466.115.121.1.28" (ISyntax JPEG));
  (* base_schema.py:1382-1385 *)
  ("LDAPSyntaxDescription", RSyntax "1.3.6.1.4.1.1466.115.121.1.54" (IDescription LDAPSyntaxDescription));
  (* base_schema.py:1387-1390 *)
  ("MatchingRuleDescription", RSyntax "1.3.6.1.4.1.1466.115.121.1.30" (IDescription MatchingRuleDescription));
  (* base_schema.py:1392-1395 *)
  ("MatchingRuleUseDescription", RSyntax "1.3.6.1.4.1.1466.115.121.1.31" (IDescription MatchingRuleUseDescription));
  (* base_schema.py:1397-1400 *)
  ("NameAndOptionalUID", RSyntax "1.3.6.1.4.1.1466.115.121.1.34" (ISyntax NameAndOptionalUID));
  (* base_schema.py:1402-1405 *)
  ("NameFormDescription", RSyntax "1.3.6.1.4.1.1466.115.121.1.35" (IDescription NameFormDescription));
  (* base_schema.py:1407-1410 *)
  ("NumericString", RSyntax "1.3.6.1.4.1.1466.115.121.1.36" (ISyntax NumericString));
  (* base_schema.py:1412-1415 *)
  ("ObjectClassDescription", RSyntax "1.3.6.1.4.1.1466.115.121.1.37" (IDescription ObjectClassDescription));
  (* base_schema.py:1417-1423 *)
  ("OctetString", RSyntax "1.3.6.1.4.1.1466.115.121.1.40" (ISyntax OctetString));
  (* base_schema.py:1425-1428 *)
  ("OID", RSyntax "1.3.6.1.4.1.1466.115.121.1.38" (ISyntax OID));
  (* base_schema.py:1430-1433 *)
  ("OtherMailbox", RSyntax "1.3.6.1.4.1.1466.115.121.1.39" (ISyntax OtherMailbox));
  (* base_schema.py:1435-1441 *)
  ("PostalAddress", RSyntax "1.3.6.1.4.1.1466.115.121.1.41" (ISyntax PostalAddress));
  (* base_schema.py:1443-1446 *)
  ("PrintableString", RSyntax "1.3.6.1.4.1.1466.115.121.1.44" (ISyntax PrintableString));
  (* base_schema.py:1448-1454 *)
  ("SubstringAssertion", RSyntax "1.3.6.1.4.1.1466.115.121.1.58" (ISyntax SubstringAssertion));
  (* base_schema.py:1456-1462 *)
  ("TelephoneNumber", RSyntax "1.3.6.1.4.1.1466.115.121.1.50" (ISyntax TelephoneNumber));
  (* base_schema.py:1464-1472 *)
  ("TeletextTerminalIdentifier", RSyntax "1.3.6.1.4.1.1466.115.121.1.51" (ISyntax TeletextTerminalIdentifier));
  (* base_schema.py:1474-1477 *)
  ("TelexNumber", RSyntax "1.3.6.1.4.1.1466.115.121.1.52" (ISyntax TelexNumber));
  (* base_schema.py:1481-1484 *)
  ("BitStringMatch", RMatching "2.5.13.16" "bitStringMatch" "1.3.6.1.4.1.1466.115.121.1.6" CPlain);
  (* base_schema.py:1486-1489 *)
  ("BooleanMatch", RMatching "2.5.13.13" "booleanMatch" "1.3.6.1.4.1.1466.115.121.1.7" CPlain);
  (* base_schema.py:1491-1495 *)
  ("CaseExactIA5Match", RMatching "1.3.6.1.4.1.1466.109.114.1" "caseExactIA5Match" "1.3.6.1.4.1.1466.115.121.1.26" CExact);
  (* base_schema.py:1497-1501 *)
  ("CaseExactMatch", RMatching "2.5.13.5" "caseExactMatch" "1.3.6.1.4.1.1466.115.121.1.15" CExact);
  (* base_schema.py:1503-1507 *)
  ("CaseIgnoreIA5Match", RMatching "1.3.6.1.4.1.1466.109.114.2" "caseIgnoreIA5Match" "1.3.6.1.4.1.1466.115.121.1.26" CIgnore);
  (* base_schema.py:1509-1513 *)
  ("CaseIgnoreListMatch", RMatching "2.5.13.11" "caseIgnoreListMatch" "1.3.6.1.4.1.1466.115.121.1.41" CIgnore);
  (* base_schema.py:1515-1519 *)
  ("CaseIgnoreMatch", RMatching "2.5.13.2" "caseIgnoreMatch" "1.3.6.1.4.1.1466.115.121.1.15" CIgnore);
  (* base_schema.py:1521-1524 *)
  ("DirectoryStringFirstComponentMatch", RMatching "2.5.13.31" "directoryStringFirstComponentMatch" "1.3.6.1.4.1.1466.115.121.1.15" CPlain);
  (* base_schema.py:1526-1559 *)
  ("DistinguishedNameMatch", RMatching "2.5.13.1" "distinguishedNameMatch" "1.3.6.1.4.1.1466.115.121.1.12" CDn);
  (* base_schema.py:1561-1569 *)
  ("GeneralizedTimeMatch", RMatching "2.5.13.27" "generalizedTimeMatch" "1.3.6.1.4.1.1466.115.121.1.24" CTime);
  (* base_schema.py:1571-1574 *)
  ("IntegerFirstComponentMatch", RMatching "2.5.13.29" "integerFirstComponentMatch" "1.3.6.1.4.1.1466.115.121.1.27" CPlain);
  (* base_schema.py:1576-1579 *)
  ("IntegerMatch", RMatching "2.5.13.14" "integerMatch" "1.3.6.1.4.1.1466.115.121.1.27" CPlain);
  (* base_schema.py:1581-1591 *)
  ("NumericStringMatch", RMatching "2.5.13.8" "numericStringMatch" "1.3.6.1.4.1.1466.115.121.1.36" CNumeric);
  (* base_schema.py:1593-1596 *)
  ("ObjectIdentifierFirstComponentMatch", RMatching "2.5.13.30" "objectIdentifierFirstComponentMatch" "1.3.6.1.4.1.1466.115.121.1.38" CPlain);
  (* base_schema.py:1598-1601 *)
  ("ObjectIdentifierMatch", RMatching "2.5.13.0" "objectIdentifierMatch" "1.3.6.1.4.1.1466.115.121.1.38" CPlain);
  (* base_schema.py:1603-1606 *)
  ("OctetStringMatch", RMatching "2.5.13.17" "octetStringMatch" "1.3.6.1.4.1.1466.115.121.1.40" CPlain);
  (* base_schema.py:1608-1618 *)
  ("TelephoneNumberMatch", RMatching "2.5.13.20" "telephoneNumberMatch" "1.3.6.1.4.1.1466.115.121.1.50" CPhone);
  (* base_schema.py:1620-1623 *)
  ("UniqueMemberMatch", RMatching "2.5.13.23" "uniqueMemberMatch" "1.3.6.1.4.1.1466.115.121.1.34" CPlain)].

(** class LaurelinSchema: netgroups.py:97-121 *)
Definition netgroups_text : list (string * raw) := [
  (* netgroups.py:98-102 *)
  ("NIS_NETGROUP", RClass false "
    ( 1.3.6.1.1.1.2.8 NAME 'nisNetgroup' SUP top STRUCTURAL
      MUST cn
      MAY ( nisNetgroupTriple $ memberNisNetgroup $ description ) )
    ");
  (* netgroups.py:104-109 *)
  ("MEMBER_NIS_NETGROUP", RType "
    ( 1.3.6.1.1.1.1.13 NAME 'memberNisNetgroup'
      EQUALITY caseExactIA5Match
      SUBSTR caseExactIA5SubstringsMatch
      SYNTAX 1.3.6.1.4.1.1466.115.121.1.26 )
    ");
  (* netgroups.py:111-116 *)
  ("NIS_NETGROUP_TRIPLE", RType "
    ( 1.3.6.1.1.1.1.14 NAME 'nisNetgroupTriple'
      DESC 'Netgroup triple'
      EQUALITY caseExactMatch
      SYNTAX 1.3.6.1.1.1.0.0 )
    ");
  (* netgroups.py:118-121 *)
  ("NisNetgroupTripleSytnax", RSyntax "1.3.6.1.1.1.0.0" (ITriple))].
