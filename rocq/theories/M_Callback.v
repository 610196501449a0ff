(** Codecs with callbacks: the shapes shared by the modules in modules/from, modules/to, modules/inter.

    - [star_table], [uni_table]: the compiled forms of the one-line sources "*<TAB>?" and "01*<TAB>?"
      (modules/from/_UTF-8.txt, modules/to/_UTF-8.txt and the other one-line .txt files); that the
      compiler produces them is checked in P_Callback.
    - [byte_loop]: "for(;this_phase->i<this_phase->curr->len;this_phase->i+=1){...}" of the decoders
      (modules/from/_UTF-8.c:171-395, UTF-16BE.c, UTF-32BE.c, _GB18030.c, ...): the body handles one byte and
      either goes on or returns with a status and the data it appended; after the loop the status is
      CONTINUE.
    - [priv]: the private state of every modelled module ("void *priv").  A module reads back what it
      stored itself, so [ByteDec]/... of a foreign state is unreachable. *)
From Verif Require Import Base Types M_Engine.

Definition star_table : table := [mkTs DEADEND [] 0 257 (repeat 1 257); mkTs SUBROUTINE [] 65535 0 []].
Definition uni_table : table :=
  [mkTs DEADEND [] 1 2 [1]; mkTs CONTINUE [] 0 257 (repeat 2 257); mkTs SUBROUTINE [] 65535 0 []].

Section Loop.
Context {Q : Type}.
Variable step : Q -> N -> Q * option (status * list datum).
Fixpoint byte_loop (q : Q) (bs : list N) (i : nat) : Q * nat * status * list datum :=
  match bs with
  | [] => (q, i, CONTINUE, [])
  | b :: r => match step q b with
              | (q', None) => byte_loop q' r (S i)
              | (q', Some (st, o)) => (q', i, st, o)
              end
  end.
End Loop.

(** A decoder callback as the engine calls it. *)
Definition loop_cb {P Q} (inj : Q -> P) (prj : P -> option Q) (step : Q -> N -> Q * option (status * list datum)) (p : P) (d : datum) (i : nat) (_ : list datum) : cbres P :=
  match prj p with
  | None => mkCb P p i DEADEND []
  | Some q => let '(q', i', st, o) := byte_loop step q (skipn i d) i in mkCb P (inj q') i' st o
  end.
(** An encoder callback that looks at the whole datum and has no state: data to emit, or DEADEND. *)
Definition datum_cb {P} (f : datum -> option (list datum)) (p : P) (d : datum) (i : nat) (_ : list datum) : cbres P :=
  match f d with
  | Some o => mkCb P p i NEXTPHASE o
  | None => mkCb P p i DEADEND []
  end.
