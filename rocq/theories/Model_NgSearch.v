(** * Model of searching for netgroups
    /repo/laurelin/extensions/netgroups.py: _netgroup_attrs, _netgroup_attrs_arg (127-136),
    LaurelinLDAPExtension.get and search (140-169), _netgroup_filter (408-409).
    Simplifications: those of Model_Request.  [must] and [may] are the attribute lists of the object
    class nisNetgroup (Model_Schema), which are given here; so are the tagged objects [tags]. *)
From Verif Require Import PyBase Model_Filter Model_Controls Model_Search Model_Request.

(** netgroups.py:88, 124 *)
Definition TAG : str := lit "netgroup_base".
Definition OBJECT_CLASS : str := lit "nisNetgroup".

(** _netgroup_attrs: netgroups.py:127-129; [oc_must], [oc_may]: oc.must and oc.may *)
Definition netgroup_attrs (must may : list str) : list str := must ++ may.
(** _netgroup_attrs_arg: netgroups.py:132-136; NoAttrs is None *)
Definition netgroup_attrs_arg (must may : list str) (a : attr_arg) : attr_arg :=
  match a with NoAttrs => Attrs (netgroup_attrs must may) | _ => a end.

(** _netgroup_filter: netgroups.py:408-409 *)
Definition netgroup_filter (f : str) : str :=
  lit "(&(objectClass=" ++ OBJECT_CLASS ++ lit ")" ++ f ++ lit ")".

(** LDAP.tag: base.py:547-558, for the objects of Model_Request *)
Definition rtags := list (str * robj).
Definition tagged (tags : rtags) (t : str) : res robj :=
  match dget tags t with Some o => Ok o | None => Raise TagError end.

(** get: netgroups.py:140-153 *)
Definition ng_get (e : env) (tags : rtags) (must may : list str) (cn : str) (a : attr_arg) : res handle * list wire_search :=
  match tagged tags TAG with
  | Raise x => (Raise x, [])
  | Ok o => obj_find e o cn (netgroup_attrs_arg must may a) []
  end.
(** search: netgroups.py:155-169 *)
Definition ng_search (e : env) (tags : rtags) (must may : list str) (f : str) (a : attr_arg) : res handle * list wire_search :=
  match tagged tags TAG with
  | Raise x => (Raise x, [])
  | Ok o => obj_search e o (Some (netgroup_filter f)) (netgroup_attrs_arg must may a) no_more []
  end.
