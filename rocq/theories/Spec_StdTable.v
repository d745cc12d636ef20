(** * What the shipped schema says, with everything inherited written out
    The object classes and attribute types of RFC 4512, 4519, 2798, 2256, 1274, 2079, 4524 and 2307 as
    far as laurelin ships them, one row each, derived from the specification texts without the
    help of the model: required and allowed attributes of a class include those of its
    superclasses; syntax, equality rule and flags of a type are those of its supertype if it does
    not state them. *)
From Coq Require Import List String NArith.
Import ListNotations.
Local Open Scope string_scope.

Record class_row := mk_class_row {
  c_oid : string; c_names : list string; c_must : list string; c_may : list string }.
(** limit None: any length; equality None: no equality rule *)
Record type_row := mk_type_row {
  t_oid : string; t_names : list string; t_syntax : string; t_limit : option N; t_equality : option string;
  t_single : bool; t_no_user_mod : bool }.

Definition class_rows : list class_row := [
  mk_class_row "2.5.6.0" ["top"]
    ["objectClass"]
    [];
  mk_class_row "2.5.6.1" ["alias"]
    ["aliasedObjectName"; "objectClass"]
    [];
  mk_class_row "2.5.20.1" ["subschema"]
    []
    ["dITStructureRules"; "nameForms"; "ditContentRules"; "objectClasses"; "attributeTypes";
     "matchingRules"; "matchingRuleUse"];
  mk_class_row "1.3.6.1.4.1.1466.101.120.111" ["extensibleObject"]
    ["objectClass"]
    [];
  mk_class_row "2.5.6.11" ["applicationProcess"]
    ["cn"; "objectClass"]
    ["seeAlso"; "ou"; "l"; "description"];
  mk_class_row "2.5.6.2" ["country"]
    ["c"; "objectClass"]
    ["searchGuide"; "description"];
  mk_class_row "1.3.6.1.4.1.1466.344" ["dcObject"]
    ["dc"; "objectClass"]
    [];
  mk_class_row "2.5.6.14" ["device"]
    ["cn"; "objectClass"]
    ["serialNumber"; "seeAlso"; "owner"; "ou"; "o"; "l"; "description"];
  mk_class_row "2.5.6.9" ["groupOfNames"]
    ["member"; "cn"; "objectClass"]
    ["businessCategory"; "seeAlso"; "owner"; "ou"; "o"; "description"];
  mk_class_row "2.5.6.17" ["groupOfUniqueNames"]
    ["uniqueMember"; "cn"; "objectClass"]
    ["businessCategory"; "seeAlso"; "owner"; "ou"; "o"; "description"];
  mk_class_row "2.5.6.3" ["locality"]
    ["objectClass"]
    ["street"; "seeAlso"; "searchGuide"; "st"; "l"; "description"];
  mk_class_row "2.5.6.4" ["organization"]
    ["o"; "objectClass"]
    ["userPassword"; "searchGuide"; "seeAlso"; "businessCategory"; "x121Address"; "registeredAddress";
     "destinationIndicator"; "preferredDeliveryMethod"; "telexNumber"; "teletexTerminalIdentifier";
     "telephoneNumber"; "internationalISDNNumber"; "facsimileTelephoneNumber"; "street";
     "postOfficeBox"; "postalCode"; "postalAddress"; "physicalDeliveryOfficeName"; "st"; "l";
     "description"];
  mk_class_row "2.5.6.7" ["organizationalPerson"]
    ["sn"; "cn"; "objectClass"]
    ["title"; "x121Address"; "registeredAddress"; "destinationIndicator"; "preferredDeliveryMethod";
     "telexNumber"; "teletexTerminalIdentifier"; "telephoneNumber"; "internationalISDNNumber";
     "facsimileTelephoneNumber"; "street"; "postOfficeBox"; "postalCode"; "postalAddress";
     "physicalDeliveryOfficeName"; "ou"; "st"; "l"; "userPassword"; "seeAlso"; "description"];
  mk_class_row "2.5.6.8" ["organizationalRole"]
    ["cn"; "objectClass"]
    ["x121Address"; "registeredAddress"; "destinationIndicator"; "preferredDeliveryMethod";
     "telexNumber"; "teletexTerminalIdentifier"; "telephoneNumber"; "internationalISDNNumber";
     "facsimileTelephoneNumber"; "seeAlso"; "roleOccupant"; "street"; "postOfficeBox"; "postalCode";
     "postalAddress"; "physicalDeliveryOfficeName"; "ou"; "st"; "l"; "description"];
  mk_class_row "2.5.6.5" ["organizationalUnit"]
    ["ou"; "objectClass"]
    ["businessCategory"; "description"; "destinationIndicator"; "facsimileTelephoneNumber";
     "internationalISDNNumber"; "l"; "physicalDeliveryOfficeName"; "postalAddress"; "postalCode";
     "postOfficeBox"; "preferredDeliveryMethod"; "registeredAddress"; "searchGuide"; "seeAlso"; "st";
     "street"; "telephoneNumber"; "teletexTerminalIdentifier"; "telexNumber"; "userPassword";
     "x121Address"];
  mk_class_row "2.5.6.6" ["person"]
    ["sn"; "cn"; "objectClass"]
    ["userPassword"; "telephoneNumber"; "seeAlso"; "description"];
  mk_class_row "2.5.6.10" ["residentialPerson"]
    ["l"; "sn"; "cn"; "objectClass"]
    ["businessCategory"; "x121Address"; "registeredAddress"; "destinationIndicator";
     "preferredDeliveryMethod"; "telexNumber"; "teletexTerminalIdentifier"; "telephoneNumber";
     "internationalISDNNumber"; "facsimileTelephoneNumber"; "street"; "postOfficeBox"; "postalCode";
     "postalAddress"; "physicalDeliveryOfficeName"; "st"; "l"; "userPassword"; "seeAlso"; "description"];
  mk_class_row "1.3.6.1.1.3.1" ["uidObject"]
    ["uid"; "objectClass"]
    [];
  mk_class_row "2.16.840.1.113730.3.2.2" ["inetOrgPerson"]
    ["cn"; "objectClass"; "sn"]
    ["audio"; "businessCategory"; "carLicense"; "departmentNumber"; "displayName"; "employeeNumber";
     "employeeType"; "givenName"; "homePhone"; "homePostalAddress"; "initials"; "jpegPhoto";
     "labeledURI"; "mail"; "manager"; "mobile"; "o"; "pager"; "photo"; "roomNumber"; "secretary"; "uid";
     "userCertificate"; "x500uniqueIdentifier"; "preferredLanguage"; "userSMIMECertificate";
     "userPKCS12"; "description"; "destinationIndicator"; "facsimileTelephoneNumber";
     "internationaliSDNNumber"; "l"; "ou"; "physicalDeliveryOfficeName"; "postalAddress"; "postalCode";
     "postOfficeBox"; "preferredDeliveryMethod"; "registeredAddress"; "seeAlso"; "st"; "street";
     "telephoneNumber"; "teletexTerminalIdentifier"; "telexNumber"; "title"; "userPassword";
     "x121Address"; "internationalISDNNumber"];
  mk_class_row "0.9.2342.19200300.100.4.5" ["account"]
    ["uid"; "objectClass"]
    ["description"; "seeAlso"; "l"; "o"; "ou"; "host"];
  mk_class_row "0.9.2342.19200300.100.4.6" ["document"]
    ["documentIdentifier"; "objectClass"]
    ["cn"; "description"; "seeAlso"; "l"; "o"; "ou"; "documentTitle"; "documentVersion";
     "documentAuthor"; "documentLocation"; "documentPublisher"];
  mk_class_row "0.9.2342.19200300.100.4.9" ["documentSeries"]
    ["cn"; "objectClass"]
    ["description"; "l"; "o"; "ou"; "seeAlso"; "telephonenumber"];
  mk_class_row "0.9.2342.19200300.100.4.13" ["domain"]
    ["dc"; "objectClass"]
    ["userPassword"; "searchGuide"; "seeAlso"; "businessCategory"; "x121Address"; "registeredAddress";
     "destinationIndicator"; "preferredDeliveryMethod"; "telexNumber"; "teletexTerminalIdentifier";
     "telephoneNumber"; "internationaliSDNNumber"; "facsimileTelephoneNumber"; "street";
     "postOfficeBox"; "postalCode"; "postalAddress"; "physicalDeliveryOfficeName"; "st"; "l";
     "description"; "o"; "associatedName"];
  mk_class_row "0.9.2342.19200300.100.4.17" ["domainRelatedObject"]
    ["associatedDomain"; "objectClass"]
    [];
  mk_class_row "0.9.2342.19200300.100.4.18" ["friendlyCountry"]
    ["co"; "c"; "objectClass"]
    ["searchGuide"; "description"];
  mk_class_row "0.9.2342.19200300.100.4.14" ["rFC822localPart"]
    ["dc"; "objectClass"]
    ["cn"; "description"; "destinationIndicator"; "facsimileTelephoneNumber"; "internationaliSDNNumber";
     "physicalDeliveryOfficeName"; "postalAddress"; "postalCode"; "postOfficeBox";
     "preferredDeliveryMethod"; "registeredAddress"; "seeAlso"; "sn"; "street"; "telephoneNumber";
     "teletexTerminalIdentifier"; "telexNumber"; "x121Address"; "userPassword"; "searchGuide";
     "businessCategory"; "st"; "l"; "o"; "associatedName"];
  mk_class_row "0.9.2342.19200300.100.4.7" ["room"]
    ["cn"; "objectClass"]
    ["roomNumber"; "description"; "seeAlso"; "telephoneNumber"];
  mk_class_row "0.9.2342.19200300.100.4.19" ["simpleSecurityObject"]
    ["userPassword"; "objectClass"]
    [];
  mk_class_row "1.3.6.1.1.1.2.8" ["nisNetgroup"]
    ["cn"; "objectClass"]
    ["nisNetgroupTriple"; "memberNisNetgroup"; "description"]].

Definition type_rows : list type_row := [
  mk_type_row "2.5.4.1" ["aliasedObjectName"] "1.3.6.1.4.1.1466.115.121.1.12" None (Some "distinguishedNameMatch") true false;
  mk_type_row "2.5.4.0" ["objectClass"] "1.3.6.1.4.1.1466.115.121.1.38" None (Some "objectIdentifierMatch") false false;
  mk_type_row "2.5.18.3" ["creatorsName"] "1.3.6.1.4.1.1466.115.121.1.12" None (Some "distinguishedNameMatch") true true;
  mk_type_row "2.5.18.1" ["createTimestamp"] "1.3.6.1.4.1.1466.115.121.1.24" None (Some "generalizedTimeMatch") true true;
  mk_type_row "2.5.18.4" ["modifiersName"] "1.3.6.1.4.1.1466.115.121.1.12" None (Some "distinguishedNameMatch") true true;
  mk_type_row "2.5.18.2" ["modifyTimestamp"] "1.3.6.1.4.1.1466.115.121.1.24" None (Some "generalizedTimeMatch") true true;
  mk_type_row "2.5.21.9" ["structuralObjectClass"] "1.3.6.1.4.1.1466.115.121.1.38" None (Some "objectIdentifierMatch") true true;
  mk_type_row "2.5.21.10" ["governingStructureRule"] "1.3.6.1.4.1.1466.115.121.1.27" None (Some "integerMatch") true true;
  mk_type_row "2.5.18.10" ["subschemaSubentry"] "1.3.6.1.4.1.1466.115.121.1.12" None (Some "distinguishedNameMatch") true true;
  mk_type_row "2.5.21.6" ["objectClasses"] "1.3.6.1.4.1.1466.115.121.1.37" None (Some "objectIdentifierFirstComponentMatch") false false;
  mk_type_row "2.5.21.5" ["attributeTypes"] "1.3.6.1.4.1.1466.115.121.1.3" None (Some "objectIdentifierFirstComponentMatch") false false;
  mk_type_row "2.5.21.4" ["matchingRules"] "1.3.6.1.4.1.1466.115.121.1.30" None (Some "objectIdentifierFirstComponentMatch") false false;
  mk_type_row "2.5.21.8" ["matchingRuleUse"] "1.3.6.1.4.1.1466.115.121.1.31" None (Some "objectIdentifierFirstComponentMatch") false false;
  mk_type_row "1.3.6.1.4.1.1466.101.120.16" ["ldapSyntaxes"] "1.3.6.1.4.1.1466.115.121.1.54" None (Some "objectIdentifierFirstComponentMatch") false false;
  mk_type_row "2.5.21.2" ["dITContentRules"] "1.3.6.1.4.1.1466.115.121.1.16" None (Some "objectIdentifierFirstComponentMatch") false false;
  mk_type_row "2.5.21.1" ["dITStructureRules"] "1.3.6.1.4.1.1466.115.121.1.17" None (Some "integerFirstComponentMatch") false false;
  mk_type_row "2.5.21.7" ["nameForms"] "1.3.6.1.4.1.1466.115.121.1.35" None (Some "objectIdentifierFirstComponentMatch") false false;
  mk_type_row "1.3.6.1.4.1.1466.101.120.6" ["altServer"] "1.3.6.1.4.1.1466.115.121.1.26" None (Some "caseExactMatch") false false;
  mk_type_row "1.3.6.1.4.1.1466.101.120.5" ["namingContexts"] "1.3.6.1.4.1.1466.115.121.1.12" None (Some "distinguishedNameMatch") false false;
  mk_type_row "1.3.6.1.4.1.1466.101.120.13" ["supportedControl"] "1.3.6.1.4.1.1466.115.121.1.38" None (Some "objectIdentifierMatch") false false;
  mk_type_row "1.3.6.1.4.1.1466.101.120.7" ["supportedExtension"] "1.3.6.1.4.1.1466.115.121.1.38" None (Some "objectIdentifierMatch") false false;
  mk_type_row "1.3.6.1.4.1.4203.1.3.5" ["supportedFeatures"] "1.3.6.1.4.1.1466.115.121.1.38" None (Some "objectIdentifierMatch") false false;
  mk_type_row "1.3.6.1.4.1.1466.101.120.15" ["supportedLDAPVersion"] "1.3.6.1.4.1.1466.115.121.1.27" None (Some "integerMatch") false false;
  mk_type_row "1.3.6.1.4.1.1466.101.120.14" ["supportedSASLMechanisms"] "1.3.6.1.4.1.1466.115.121.1.15" None (Some "caseIgnoreMatch") false false;
  mk_type_row "2.5.4.15" ["businessCategory"] "1.3.6.1.4.1.1466.115.121.1.15" None (Some "caseIgnoreMatch") false false;
  mk_type_row "2.5.4.6" ["c"] "1.3.6.1.4.1.1466.115.121.1.11" None (Some "caseIgnoreMatch") true false;
  mk_type_row "2.5.4.3" ["cn"] "1.3.6.1.4.1.1466.115.121.1.15" None (Some "caseIgnoreMatch") false false;
  mk_type_row "0.9.2342.19200300.100.1.25" ["dc"] "1.3.6.1.4.1.1466.115.121.1.26" None (Some "caseIgnoreIA5Match") true false;
  mk_type_row "2.5.4.13" ["description"] "1.3.6.1.4.1.1466.115.121.1.15" None (Some "caseIgnoreMatch") false false;
  mk_type_row "2.5.4.27" ["destinationIndicator"] "1.3.6.1.4.1.1466.115.121.1.44" None (Some "caseIgnoreMatch") false false;
  mk_type_row "2.5.4.49" ["distinguishedName"] "1.3.6.1.4.1.1466.115.121.1.12" None (Some "distinguishedNameMatch") false false;
  mk_type_row "2.5.4.46" ["dnQualifier"] "1.3.6.1.4.1.1466.115.121.1.44" None (Some "caseIgnoreMatch") false false;
  mk_type_row "2.5.4.47" ["enhancedSearchGuide"] "1.3.6.1.4.1.1466.115.121.1.21" None None false false;
  mk_type_row "2.5.4.23" ["facsimileTelephoneNumber"] "1.3.6.1.4.1.1466.115.121.1.22" None None false false;
  mk_type_row "2.5.4.44" ["generationQualifier"] "1.3.6.1.4.1.1466.115.121.1.15" None (Some "caseIgnoreMatch") false false;
  mk_type_row "2.5.4.42" ["givenName"] "1.3.6.1.4.1.1466.115.121.1.15" None (Some "caseIgnoreMatch") false false;
  mk_type_row "2.5.4.51" ["houseIdentifier"] "1.3.6.1.4.1.1466.115.121.1.15" None (Some "caseIgnoreMatch") false false;
  mk_type_row "2.5.4.43" ["initials"] "1.3.6.1.4.1.1466.115.121.1.15" None (Some "caseIgnoreMatch") false false;
  mk_type_row "2.5.4.25" ["internationalISDNNumber"] "1.3.6.1.4.1.1466.115.121.1.36" None (Some "numericStringMatch") false false;
  mk_type_row "2.5.4.7" ["l"] "1.3.6.1.4.1.1466.115.121.1.15" None (Some "caseIgnoreMatch") false false;
  mk_type_row "2.5.4.31" ["member"] "1.3.6.1.4.1.1466.115.121.1.12" None (Some "distinguishedNameMatch") false false;
  mk_type_row "2.5.4.41" ["name"] "1.3.6.1.4.1.1466.115.121.1.15" None (Some "caseIgnoreMatch") false false;
  mk_type_row "2.5.4.10" ["o"] "1.3.6.1.4.1.1466.115.121.1.15" None (Some "caseIgnoreMatch") false false;
  mk_type_row "2.5.4.11" ["ou"] "1.3.6.1.4.1.1466.115.121.1.15" None (Some "caseIgnoreMatch") false false;
  mk_type_row "2.5.4.32" ["owner"] "1.3.6.1.4.1.1466.115.121.1.12" None (Some "distinguishedNameMatch") false false;
  mk_type_row "2.5.4.19" ["physicalDeliveryOfficeName"] "1.3.6.1.4.1.1466.115.121.1.15" None (Some "caseIgnoreMatch") false false;
  mk_type_row "2.5.4.16" ["postalAddress"] "1.3.6.1.4.1.1466.115.121.1.41" None (Some "caseIgnoreListMatch") false false;
  mk_type_row "2.5.4.17" ["postalCode"] "1.3.6.1.4.1.1466.115.121.1.15" None (Some "caseIgnoreMatch") false false;
  mk_type_row "2.5.4.18" ["postOfficeBox"] "1.3.6.1.4.1.1466.115.121.1.15" None (Some "caseIgnoreMatch") false false;
  mk_type_row "2.5.4.28" ["preferredDeliveryMethod"] "1.3.6.1.4.1.1466.115.121.1.14" None None true false;
  mk_type_row "2.5.4.26" ["registeredAddress"] "1.3.6.1.4.1.1466.115.121.1.41" None (Some "caseIgnoreListMatch") false false;
  mk_type_row "2.5.4.33" ["roleOccupant"] "1.3.6.1.4.1.1466.115.121.1.12" None (Some "distinguishedNameMatch") false false;
  mk_type_row "2.5.4.14" ["searchGuide"] "1.3.6.1.4.1.1466.115.121.1.25" None None false false;
  mk_type_row "2.5.4.34" ["seeAlso"] "1.3.6.1.4.1.1466.115.121.1.12" None (Some "distinguishedNameMatch") false false;
  mk_type_row "2.5.4.5" ["serialNumber"] "1.3.6.1.4.1.1466.115.121.1.44" None (Some "caseIgnoreMatch") false false;
  mk_type_row "2.5.4.4" ["sn"] "1.3.6.1.4.1.1466.115.121.1.15" None (Some "caseIgnoreMatch") false false;
  mk_type_row "2.5.4.8" ["st"] "1.3.6.1.4.1.1466.115.121.1.15" None (Some "caseIgnoreMatch") false false;
  mk_type_row "2.5.4.9" ["street"] "1.3.6.1.4.1.1466.115.121.1.15" None (Some "caseIgnoreMatch") false false;
  mk_type_row "2.5.4.20" ["telephoneNumber"] "1.3.6.1.4.1.1466.115.121.1.50" None (Some "telephoneNumberMatch") false false;
  mk_type_row "2.5.4.22" ["teletexTerminalIdentifier"] "1.3.6.1.4.1.1466.115.121.1.51" None None false false;
  mk_type_row "2.5.4.21" ["telexNumber"] "1.3.6.1.4.1.1466.115.121.1.52" None None false false;
  mk_type_row "2.5.4.12" ["title"] "1.3.6.1.4.1.1466.115.121.1.15" None (Some "caseIgnoreMatch") false false;
  mk_type_row "0.9.2342.19200300.100.1.1" ["uid"] "1.3.6.1.4.1.1466.115.121.1.15" None (Some "caseIgnoreMatch") false false;
  mk_type_row "2.5.4.50" ["uniqueMember"] "1.3.6.1.4.1.1466.115.121.1.34" None (Some "uniqueMemberMatch") false false;
  mk_type_row "2.5.4.35" ["userPassword"] "1.3.6.1.4.1.1466.115.121.1.40" None (Some "octetStringMatch") false false;
  mk_type_row "2.5.4.24" ["x121Address"] "1.3.6.1.4.1.1466.115.121.1.36" None (Some "numericStringMatch") false false;
  mk_type_row "2.5.4.45" ["x500UniqueIdentifier"] "1.3.6.1.4.1.1466.115.121.1.6" None (Some "bitStringMatch") false false;
  mk_type_row "2.16.840.1.113730.3.1.1" ["carLicense"] "1.3.6.1.4.1.1466.115.121.1.15" None (Some "caseIgnoreMatch") false false;
  mk_type_row "2.16.840.1.113730.3.1.2" ["departmentNumber"] "1.3.6.1.4.1.1466.115.121.1.15" None (Some "caseIgnoreMatch") false false;
  mk_type_row "2.16.840.1.113730.3.1.241" ["displayName"] "1.3.6.1.4.1.1466.115.121.1.15" None (Some "caseIgnoreMatch") true false;
  mk_type_row "2.16.840.1.113730.3.1.3" ["employeeNumber"] "1.3.6.1.4.1.1466.115.121.1.15" None (Some "caseIgnoreMatch") true false;
  mk_type_row "2.16.840.1.113730.3.1.4" ["employeeType"] "1.3.6.1.4.1.1466.115.121.1.15" None (Some "caseIgnoreMatch") false false;
  mk_type_row "0.9.2342.19200300.100.1.60" ["jpegPhoto"] "1.3.6.1.4.1.1466.115.121.1.28" None None false false;
  mk_type_row "2.16.840.1.113730.3.1.39" ["preferredLanguage"] "1.3.6.1.4.1.1466.115.121.1.15" None (Some "caseIgnoreMatch") true false;
  mk_type_row "2.16.840.1.113730.3.1.40" ["userSMIMECertificate"] "1.3.6.1.4.1.1466.115.121.1.5" None None false false;
  mk_type_row "2.16.840.1.113730.3.1.216" ["userPKCS12"] "1.3.6.1.4.1.1466.115.121.1.5" None None false false;
  mk_type_row "2.5.4.36" ["userCertificate"] "1.3.6.1.4.1.1466.115.121.1.8" None None false false;
  mk_type_row "0.9.2342.19200300.100.1.55" ["audio"] "1.3.6.1.4.1.1466.115.121.1.40" (Some 250000%N) (Some "octetStringMatch") false false;
  mk_type_row "0.9.2342.19200300.100.1.7" ["photo"] "1.3.6.1.4.1.1466.115.121.1.5" None (Some "octetStringMatch") false false;
  mk_type_row "1.3.6.1.4.1.250.1.57" ["labeledURI"] "1.3.6.1.4.1.1466.115.121.1.15" None (Some "caseExactMatch") false false;
  mk_type_row "0.9.2342.19200300.100.1.37" ["associatedDomain"] "1.3.6.1.4.1.1466.115.121.1.26" None (Some "caseIgnoreIA5Match") false false;
  mk_type_row "0.9.2342.19200300.100.1.38" ["associatedName"] "1.3.6.1.4.1.1466.115.121.1.12" None (Some "distinguishedNameMatch") false false;
  mk_type_row "0.9.2342.19200300.100.1.48" ["buildingName"] "1.3.6.1.4.1.1466.115.121.1.15" (Some 256%N) (Some "caseIgnoreMatch") false false;
  mk_type_row "0.9.2342.19200300.100.1.43" ["co"] "1.3.6.1.4.1.1466.115.121.1.15" None (Some "caseIgnoreMatch") false false;
  mk_type_row "0.9.2342.19200300.100.1.14" ["documentAuthor"] "1.3.6.1.4.1.1466.115.121.1.12" None (Some "distinguishedNameMatch") false false;
  mk_type_row "0.9.2342.19200300.100.1.11" ["documentIdentifier"] "1.3.6.1.4.1.1466.115.121.1.15" (Some 256%N) (Some "caseIgnoreMatch") false false;
  mk_type_row "0.9.2342.19200300.100.1.15" ["documentLocation"] "1.3.6.1.4.1.1466.115.121.1.15" (Some 256%N) (Some "caseIgnoreMatch") false false;
  mk_type_row "0.9.2342.19200300.100.1.56" ["documentPublisher"] "1.3.6.1.4.1.1466.115.121.1.15" None (Some "caseIgnoreMatch") false false;
  mk_type_row "0.9.2342.19200300.100.1.12" ["documentTitle"] "1.3.6.1.4.1.1466.115.121.1.15" (Some 256%N) (Some "caseIgnoreMatch") false false;
  mk_type_row "0.9.2342.19200300.100.1.13" ["documentVersion"] "1.3.6.1.4.1.1466.115.121.1.15" (Some 256%N) (Some "caseIgnoreMatch") false false;
  mk_type_row "0.9.2342.19200300.100.1.5" ["drink"] "1.3.6.1.4.1.1466.115.121.1.15" (Some 256%N) (Some "caseIgnoreMatch") false false;
  mk_type_row "0.9.2342.19200300.100.1.20" ["homePhone"] "1.3.6.1.4.1.1466.115.121.1.50" None (Some "telephoneNumberMatch") false false;
  mk_type_row "0.9.2342.19200300.100.1.39" ["homePostalAddress"] "1.3.6.1.4.1.1466.115.121.1.41" None (Some "caseIgnoreListMatch") false false;
  mk_type_row "0.9.2342.19200300.100.1.9" ["host"] "1.3.6.1.4.1.1466.115.121.1.15" (Some 256%N) (Some "caseIgnoreMatch") false false;
  mk_type_row "0.9.2342.19200300.100.1.4" ["info"] "1.3.6.1.4.1.1466.115.121.1.15" (Some 2048%N) (Some "caseIgnoreMatch") false false;
  mk_type_row "0.9.2342.19200300.100.1.3" ["mail"] "1.3.6.1.4.1.1466.115.121.1.26" (Some 256%N) (Some "caseIgnoreIA5Match") false false;
  mk_type_row "0.9.2342.19200300.100.1.10" ["manager"] "1.3.6.1.4.1.1466.115.121.1.12" None (Some "distinguishedNameMatch") false false;
  mk_type_row "0.9.2342.19200300.100.1.41" ["mobile"] "1.3.6.1.4.1.1466.115.121.1.50" None (Some "telephoneNumberMatch") false false;
  mk_type_row "0.9.2342.19200300.100.1.45" ["organizationalStatus"] "1.3.6.1.4.1.1466.115.121.1.15" (Some 256%N) (Some "caseIgnoreMatch") false false;
  mk_type_row "0.9.2342.19200300.100.1.42" ["pager"] "1.3.6.1.4.1.1466.115.121.1.50" None (Some "telephoneNumberMatch") false false;
  mk_type_row "0.9.2342.19200300.100.1.40" ["personalTitle"] "1.3.6.1.4.1.1466.115.121.1.15" (Some 256%N) (Some "caseIgnoreMatch") false false;
  mk_type_row "0.9.2342.19200300.100.1.6" ["roomNumber"] "1.3.6.1.4.1.1466.115.121.1.15" (Some 256%N) (Some "caseIgnoreMatch") false false;
  mk_type_row "0.9.2342.19200300.100.1.21" ["secretary"] "1.3.6.1.4.1.1466.115.121.1.12" None (Some "distinguishedNameMatch") false false;
  mk_type_row "0.9.2342.19200300.100.1.44" ["uniqueIdentifier"] "1.3.6.1.4.1.1466.115.121.1.15" (Some 256%N) (Some "caseIgnoreMatch") false false;
  mk_type_row "0.9.2342.19200300.100.1.8" ["userClass"] "1.3.6.1.4.1.1466.115.121.1.15" (Some 256%N) (Some "caseIgnoreMatch") false false;
  mk_type_row "1.3.6.1.1.1.1.13" ["memberNisNetgroup"] "1.3.6.1.4.1.1466.115.121.1.26" None (Some "caseExactIA5Match") false false;
  mk_type_row "1.3.6.1.1.1.1.14" ["nisNetgroupTriple"] "1.3.6.1.1.1.0.0" None (Some "caseExactMatch") false false].
