(** Specifications for the intermediate modules: widths, padding, counting, replacing. *)
From Verif Require Import Base Types S_Ranges D_Ranges.
Local Open Scope N_scope.

(** The code point of a datum: type byte 01 followed by the bytes, 32 bits of them counting. *)
Definition code (d : datum) (c : N) : Prop := exists l, d = 1 :: l /\ c = be_value l mod 0x100000000.

(** Display classes according to the shipped table (modules/inter/_WIDTH.h): each row gives a range and a class,
    1: half width, 2: full width, 3: ambiguous. *)
Definition in_class (k : N) (d : datum) : Prop := exists c a b, code d c /\ In (a, b, k) width_table /\ a <= c <= b.
(** [counts P n ds]: exactly [n] of the data satisfy P. *)
Inductive counts {A} (P : A -> Prop) : N -> list A -> Prop :=
| co_nil : counts P 0 []
| co_yes x n l : P x -> counts P n l -> counts P (n + 1) (x :: l)
| co_no x n l : ~ P x -> counts P n l -> counts P n (x :: l).
(** The display width of a datum when ambiguous characters take [aw] columns; other data take none. *)
Definition width_is (aw : N) (d : datum) (w : N) : Prop :=
  (in_class 1 d /\ w = 1) \/ (in_class 2 d /\ w = 2) \/ (in_class 3 d /\ w = aw) \/
  (w = 0 /\ ~ in_class 1 d /\ ~ in_class 2 d /\ ~ in_class 3 d).
Inductive total_width (aw : N) : list datum -> N -> Prop :=
| tw_nil : total_width aw [] 0
| tw_cons d ds w n : width_is aw d w -> total_width aw ds n -> total_width aw (d :: ds) (w + n).

(** A Unicode datum with at least one byte of code. *)
Definition unicode_datum (d : datum) : Prop := exists x l, d = 1 :: x :: l.
(** The code points of ambiguous width for padding (modules/inter/_AMBIGUOUS.h). *)
Definition ambiguous (d : datum) : Prop := exists c, code d c /\ within ambiguous_table c.
(** Text with a no-break space after every ambiguous character. *)
Inductive padded : list datum -> list datum -> Prop :=
| pd_nil : padded [] []
| pd_yes d ds ps : ambiguous d -> padded ds ps -> padded (d :: ds) (d :: [1; 0xA0] :: ps)
| pd_no d ds ps : ~ ambiguous d -> padded ds ps -> padded (d :: ds) (d :: ps).

(** Replacing, from left to right, the occurrences of the data [from] by [to]. *)
Inductive replaced {A : Type} (from to : list A) : list A -> list A -> Prop :=
| rp_nil : replaced from to [] []
| rp_hit ds o : replaced from to ds o -> replaced from to (from ++ ds) (to ++ o)
| rp_miss d ds o : (forall r, d :: ds <> from ++ r) -> replaced from to ds o -> replaced from to (d :: ds) (d :: o).
