(** * Model of the text of unsolicited messages: net.py:345-367.  Reading up to one is Model_Net's (DUnsolicited and
    Unsolicited), reading its parts is Model_Reply's.  [code_text] is what str() gives for a result code, which differs between
    versions of pyasn1. *)
From Verif Require Import PyBase Model_Wire Model_Reply.
Local Open Scope string_scope.

Section Notice.
  Context (decode : list N -> option str) (absent : str) (code_text : Z -> str).
  (** LDAPSocket.OID_DISCONNECTION_NOTICE: net.py:54 *)
  Definition OID_DISCONNECTION_NOTICE : str := lit "1.3.6.1.4.1.1466.20036".
  (** ResultCode('protocolError'), ResultCode('strongerAuthRequired'): rfc4511.py:310-316 *)
  Definition RESULT_protocolError : Z := 2.
  Definition RESULT_strongerAuthRequired : Z := 8.
  (** the body of the try statement: net.py:348-363; its result is the value of [msg] *)
  Definition notice_parts (lm : obj) : res str :=
    let* (xr, _) := unpack "extendedResp" lm in
    let res_code := code_of xr in
    let* xr_oid := text_or_absent decode absent (component xr "responseName") in
    let mtype := if str_eqb xr_oid OID_DISCONNECTION_NOTICE then lit "Notice of Disconnection"
                 else (lit "Unhandled (" ++ xr_oid ++ lit ")")%list in
    let* diag := text_or_absent decode absent (component xr "diagnosticMessage") in
    let msg := (lit "Got unsolicited message: " ++ mtype ++ lit ": " ++ code_text res_code ++ lit ": " ++ diag)%list in
    Ok (if Z.eqb res_code RESULT_protocolError
        then msg ++ lit " (This may indicate an incompatability between laurelin-ldap and your server distribution)"
        else if Z.eqb res_code RESULT_strongerAuthRequired
        then msg ++ lit " (The server has detected that an established security association between the client and server has unexpectedly failed or been compromised)"
        else msg)%list.
  (** the message of the LDAPUnsolicitedMessage: the default of net.py:346 stays if anything but UnexpectedResponseType is
      raised: net.py:364-367 *)
  Definition notice_text (lm : obj) : str :=
    match notice_parts lm with
    | Ok msg => msg
    | Raise UnexpectedResponseType => lit "Unhandled unsolicited message from server"
    | Raise _ => lit "Received unsolicited message (default message - should never be seen)"
    end.
End Notice.
