(** * Bytes literals of Python (The Python Language Reference, 2.4.1), without reference to the model

    The part of the notation that repr() may use: a literal between single or double quotes, with single
    characters, the escapes for the backslash, the quotes, tab, line feed and carriage return, and two-digit hex
    escapes. Texts are lists of code points, values lists of octets. *)
From Coq Require Import List NArith Lia.
Import ListNotations.
Open Scope N_scope.

(** the value of a hexadecimal digit, lower or upper case *)
Inductive hex_value : N -> N -> Prop :=
| hex_09 c : 48 <= c <= 57 -> hex_value c (c - 48)
| hex_af c : 97 <= c <= 102 -> hex_value c (c - 87)
| hex_AF c : 65 <= c <= 70 -> hex_value c (c - 55).

(** the character after a backslash, and the octet meant *)
Inductive escape_value : N -> N -> Prop :=
| esc_backslash : escape_value 92 92
| esc_single : escape_value 39 39
| esc_double : escape_value 34 34
| esc_t : escape_value 116 9
| esc_n : escape_value 110 10
| esc_r : escape_value 114 13.

(** [body q s b]: the text s, followed by the closing quote q, stands for the octets b *)
Inductive body (q : N) : list N -> list N -> Prop :=
| body_end : body q [q] []
| body_plain c s b : 32 <= c <= 126 -> c <> q -> c <> 92 -> body q s b -> body q (c :: s) (c :: b)
| body_escape c o s b : escape_value c o -> body q s b -> body q (92 :: c :: s) (o :: b)
| body_hex h l x y s b : hex_value h x -> hex_value l y -> body q s b -> body q (92 :: 120 :: h :: l :: s) (16 * x + y :: b).

(** a whole literal: the letter b, a quote, the body and the same quote *)
Inductive bytes_literal : list N -> list N -> Prop :=
| a_literal q s b : q = 39 \/ q = 34 -> body q s b -> bytes_literal (98 :: q :: s) b.

(** What repr() writes is the shortest such literal in the following sense: escapes only where needed, hex
    escapes only for octets without another notation. *)
Inductive item (q : N) : N -> list N -> Prop :=
| item_plain c : 32 <= c <= 126 -> c <> q -> c <> 92 -> item q c [c]
| item_quote : item q q [92; q]
| item_backslash : item q 92 [92; 92]
| item_tab : item q 9 [92; 116]
| item_lf : item q 10 [92; 110]
| item_cr : item q 13 [92; 114]
| item_hex c h l x y : c < 32 \/ 127 <= c -> c <> 9 -> c <> 10 -> c <> 13 -> 
    hex_value h x -> hex_value l y -> ~ (65 <= h <= 70) -> ~ (65 <= l <= 70) -> c = 16 * x + y -> item q c [92; 120; h; l].
(** double quotes around a value with single quotes and no double ones, single quotes otherwise *)
Definition quote_for (b : list N) (q : N) : Prop :=
  (q = 34 /\ In 39 b /\ ~ In 34 b) \/ (q = 39 /\ (~ In 39 b \/ In 34 b)).
Inductive items (q : N) : list N -> list N -> Prop :=
| items_nil : items q [] []
| items_cons c t b s : item q c t -> items q b s -> items q (c :: b) (t ++ s).
Definition repr_of (b s : list N) : Prop := exists q t, quote_for b q /\ items q b t /\ s = 98 :: q :: t ++ [q].
