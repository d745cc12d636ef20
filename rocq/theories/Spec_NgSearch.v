(** * What it means that a search finds netgroups only *)
From Verif Require Import PyBase Model_Filter Spec_Filter Model_Search Model_Request.

(** RFC 4511 4.5.1.7: a filter is true, false or undefined of an entry; the server returns the
    entries it is true of.  [test] says what each single comparison is of an entry. *)
Inductive truth := TRUE | FALSE | UNDEFINED.
Definition t_not (t : truth) : truth := match t with TRUE => FALSE | FALSE => TRUE | UNDEFINED => UNDEFINED end.
Definition t_and (a b : truth) : truth :=
  match a, b with FALSE, _ | _, FALSE => FALSE | TRUE, TRUE => TRUE | _, _ => UNDEFINED end.
Definition t_or (a b : truth) : truth :=
  match a, b with TRUE, _ | _, TRUE => TRUE | FALSE, FALSE => FALSE | _, _ => UNDEFINED end.
Fixpoint eval (test : filter -> truth) (f : filter) : truth :=
  match f with
  | FAnd l => fold_right (fun g t => t_and (eval test g) t) TRUE l
  | FOr l => fold_right (fun g t => t_or (eval test g) t) FALSE l
  | FNot g => t_not (eval test g)
  | _ => test f
  end.

(** the comparison an entry of the class passes *)
Definition is_netgroup : filter := FEq (lit "objectClass") (lit "nisNetgroup").
(** no entry but netgroups can be returned *)
Definition netgroups_only (f : filter) : Prop := forall test, eval test f = TRUE -> test is_netgroup = TRUE.

(** no parenthesis is closed in the text that is not opened in it before *)
Definition count (c : N) (s : str) : nat := count_occ N.eq_dec s c.
Definition closes_what_it_opens (s : str) : Prop := forall p r, s = p ++ r -> count (ch ")") p <= count (ch "(") p.

(** what is asked for when no attributes are named *)
Definition ng_attrs_asked (must may : list str) (a : attr_arg) (l : list str) : Prop :=
  match a with NoAttrs => l = must ++ may | OneAttr x => l = [x] | Attrs l' => l = l' end.
