(** * Model of extension activation: /repo/laurelin/ldap/extensible/base.py, user_base.py and the
    generated laurelin_extensions.py, ldap_extensions.py, ldapobject_extensions.py
    Simplifications: a module is its name; importing it the first time runs the class definitions
    and require() calls of its body (those of modules it imports included), later imports do
    nothing; a module whose body raises is not kept by the import system.  LaurelinExtension
    classes are not shared between modules (INSTANCE is then per module) and their constructors,
    like those of the other extension classes, do nothing but what the base classes do.
    AVAILABLE_EXTENSIONS is an arbitrary table, fixed during the run.  Logging is not modelled. *)
From Verif Require Import PyBase Model_Registration.

Definition ImportError : exn := OtherExn 1.

(** The three classes with extension attributes: LDAP (base.py:82), LDAPObject
    (ldapobject.py:22), Extensions (laurelin_extensions.py:7) *)
Inductive host := HLdap | HObj | HExts.

(** The LaurelinExtension class of a module: is it a subclass of BaseLaurelinExtension, its NAME
    (user_base.py:6) *)
Record extcls := mk_extcls { x_sub : bool; x_name : str }.

(** What a module provides.  [p_ldap] is its LaurelinLDAPExtension, if any, and whether that
    subclasses BaseLaurelinLDAPExtension; [p_obj] likewise for LDAPObject. *)
Record pymod := mk_pymod {
  p_body : list event;
  p_ext : option extcls;
  p_ldap : option bool;
  p_obj : option bool
}.

(** An instance of an extension class: identity, module, parent object *)
Record inst := mk_inst { in_id : nat; in_mod : str; in_parent : option nat }.
(** An extensible object: class, _built_in_only, _extension_instances (base.py:127-129) *)
Record eobj := mk_eobj { o_host : host; o_only : bool; o_insts : list (str * inst) }.

Record state := mk_state {
  s_world : world;                  (* registration: Model_Registration *)
  s_mods : list str;                (* sys.modules *)
  s_setup : list str;               (* modules carrying the SETUP_COMPLETE flag *)
  s_inst : list (str * inst);       (* LaurelinExtension.INSTANCE of each module *)
  s_added : list (str * str);       (* ADDITIONAL_EXTENSIONS: NAME -> module *)
  s_objs : list eobj;
  s_next : nat                      (* identity of the next object created *)
}.

(** What reading an attribute gives: an attribute the class has anyway, or an extension *)
Inductive seen := Own | Ext (i : inst).

Section Extensible.
  Context (lower : str -> str) (reserved : list str).
  Context (modules : str -> option pymod).                 (* None: cannot be imported *)
  Context (available : list (str * (str * bool))).         (* name -> module, is it third-party *)
  Context (prop : host -> str -> bool).                    (* generated properties *)
  Context (own : host -> str -> bool).                     (* other attributes of the object *)

  (** import_module: runs the body on first import *)
  Fixpoint run_body (evs : list event) (w : world) : res unit * world :=
    match evs with
    | [] => (Ok tt, w)
    | ev :: rest =>
        match step lower reserved w ev with
        | (Ok _, w') => run_body rest w'
        | (Raise x, w') => (Raise x, w')
        end
    end.
  Definition with_world (s : state) (w : world) : state :=
    mk_state w (s_mods s) (s_setup s) (s_inst s) (s_added s) (s_objs s) (s_next s).
  Definition import_module (m : str) (s : state) : res pymod * state :=
    match modules m with
    | None => (Raise ImportError, s)
    | Some pm =>
        if smem m (s_mods s) then (Ok pm, s)
        else match run_body (p_body pm) (s_world s) with
             | (Raise x, w) => (Raise x, with_world s w)
             | (Ok _, w) => (Ok pm, mk_state w (m :: s_mods s) (s_setup s) (s_inst s) (s_added s) (s_objs s) (s_next s))
             end
    end.

  (** _import_extension: base.py:69-96; AttributeError from require() is caught like that of a
      missing class *)
  Definition import_extension (m : str) (s : state) : res pymod * state :=
    match import_module m s with
    | (Raise x, s1) => (Raise x, s1)
    | (Ok pm, s1) =>
        if smem m (s_setup s1) then (Ok pm, s1)
        else match p_ext pm with
             | None => (Raise LDAPExtensionError, s1)
             | Some c =>
                 if negb (x_sub c) then (Raise LDAPExtensionError, s1)
                 else if str_eqb (x_name c) (lit "__undefined__") then (Raise LDAPExtensionError, s1)
                 else match require lower reserved m (s_world s1) with
                      | (Raise AttributeError, w) => (Raise LDAPExtensionError, with_world s1 w)
                      | (Raise x, w) => (Raise x, with_world s1 w)
                      | (Ok _, w) =>
                          (Ok pm, mk_state w (s_mods s1) (m :: s_setup s1)
                                    (dset (s_inst s1) m (mk_inst (s_next s1) m None)) (s_added s1) (s_objs s1) (S (s_next s1)))
                      end
             end
    end.

  (** add_extension: base.py:18-66 *)
  Definition add_extension (m : str) (s : state) : res unit * state :=
    match import_extension m s with
    | (Raise x, s1) => (Raise x, s1)
    | (Ok pm, s1) =>
        match p_ext pm with
        | None => (Raise AttributeError, s1)
        | Some c =>
            match dget (s_added s1) (x_name c) with
            | Some m' => if str_eqb m' m then (Ok tt, s1) else (Raise LDAPExtensionError, s1)
            | None =>
                match dget available (x_name c) with
                | Some (m', _) => if str_eqb m' m then (Ok tt, s1) else (Raise LDAPExtensionError, s1)
                | None => (Ok tt, mk_state (s_world s1) (s_mods s1) (s_setup s1) (s_inst s1)
                                    (dset (s_added s1) (x_name c) m) (s_objs s1) (s_next s1))
                end
            end
        end
    end.

  Fixpoint upd {A} (l : list A) (n : nat) (x : A) : list A :=
    match l, n with
    | [], _ => []
    | _ :: l', 0 => x :: l'
    | y :: l', S n' => y :: upd l' n' x
    end.
  (** storing an instance in _extension_instances of object [n] *)
  Definition cache (s : state) (n : nat) (o : eobj) (name : str) (i : inst) (next : nat) : state :=
    mk_state (s_world s) (s_mods s) (s_setup s) (s_inst s) (s_added s)
      (upd (s_objs s) n (mk_eobj (o_host o) (o_only o) (dset (o_insts o) name i))) next.

  (** _create_extension_instance: base.py:191-209 for LDAP and LDAPObject, 214-217 for Extensions
      (INSTANCE is None on a class that was not set up; [setdefault] on a name not cached) *)
  Definition create_instance (n : nat) (o : eobj) (name m : str) (pm : pymod) (s : state) : res seen * state :=
    match (match o_host o with HLdap => Some (p_ldap pm) | HObj => Some (p_obj pm) | HExts => None end) with
    | Some None => (Raise LDAPExtensionError, s)
    | Some (Some false) => (Raise LDAPExtensionError, s)
    | Some (Some true) =>
        let i := mk_inst (s_next s) m (Some n) in (Ok (Ext i), cache s n o name i (S (s_next s)))
    | None =>
        match dget (s_inst s) m with
        | Some i => (Ok (Ext i), cache s n o name i (s_next s))
        | None => (Raise AttributeError, s)
        end
    end.

  (** _get_extension_instance: base.py:131-152 *)
  Definition get_extension_instance (n : nat) (o : eobj) (name : str) (s : state) : res seen * state :=
    match dget available name with
    | None => (Raise KeyError, s)
    | Some (m, third) =>
        if o_only o && third then (Raise RuntimeError, s)
        else match dget (o_insts o) name with
             | Some i => (Ok (Ext i), s)
             | None =>
                 match import_extension m s with
                 | (Raise x, s1) => ((if exn_eqb x ImportError then Raise LDAPExtensionError else Raise x), s1)
                 | (Ok pm, s1) => create_instance n o name m pm s1
                 end
             end
    end.

  (** Extensible.__getattr__: base.py:157-171; the modules stored were imported *)
  Definition getattr_ (n : nat) (o : eobj) (name : str) (s : state) : res seen * state :=
    match dget (o_insts o) name with
    | Some i => (Ok (Ext i), s)
    | None =>
        match dget (s_added s) name with
        | None => (Raise AttributeError, s)
        | Some m =>
            if o_only o then (Raise RuntimeError, s)
            else match modules m with
                 | Some pm => create_instance n o name m pm s
                 | None => (Raise AttributeError, s)
                 end
        end
    end.

  (** Reading attribute [name] of object [n]: properties and other attributes come before
      __getattr__ *)
  Definition access (n : nat) (name : str) (s : state) : res seen * state :=
    match nth_error (s_objs s) n with
    | None => (Raise AttributeError, s)
    | Some o =>
        if prop (o_host o) name then get_extension_instance n o name s
        else if own (o_host o) name then (Ok Own, s)
        else getattr_ n o name s
    end.

  (** Histories *)
  Inductive call :=
  | New (h : host) (built_in_only : bool)
  | Add (m : str)
  | Access (n : nat) (name : str)
  | Reg (ev : event).               (* other definitions and require() calls *)
  Definition exec (s : state) (c : call) : res (option seen) * state :=
    match c with
    | New h b => (Ok None, mk_state (s_world s) (s_mods s) (s_setup s) (s_inst s) (s_added s)
                             (s_objs s ++ [mk_eobj h b []]) (s_next s))
    | Add m => let '(r, s') := add_extension m s in ((let* _ := r in Ok None), s')
    | Access n name => let '(r, s') := access n name s in ((let* v := r in Ok (Some v)), s')
    | Reg ev => let '(r, w) := step lower reserved (s_world s) ev in ((let* _ := r in Ok None), with_world s w)
    end.
  Fixpoint execs (cs : list call) (s : state) : state :=
    match cs with [] => s | c :: cs' => execs cs' (snd (exec s c)) end.
  Definition start : state := mk_state empty_world [] [] [] [] [] 0.
End Extensible.
