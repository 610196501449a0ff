(** The intermediate modules with a callback and the one-line source "*<TAB>?" (modules/inter/WIDTH.txt and others):
    cbconv is called once for every datum, with the private state of the codec, and cbflush at the end of a stream
    if the phase is pending. *)
From Verif Require Import Base Types M_Engine.

(** cbconv: new private state, status stored in state.status, data appended at data_tail.  cbflush likewise
    (src/libbsdconv.c:766-768; NULL: nothing happens). *)
Record star (S : Type) := mkStar {
  st_conv : S -> datum -> S * status * list datum;
  st_flush : S -> S * list datum
}.
Arguments mkStar {S}. Arguments st_conv {S}. Arguments st_flush {S}.
Definition no_flush {S} (s : S) : S * list datum := (s, []).

Section Run.
Context {S : Type}.
Variable m : star S.
(** One datum in a phase whose only codec is this module, [pend] being F_MATCH|F_PENDING (src/libbsdconv.c:752-858):
    NEXTPHASE (line 832) ends the match; SUBMATCH (line 812, match_data NULL since the source line has no data) goes
    on; DEADEND (line 758) passes the datum on unchanged if nothing is pending.  [None]: the other combinations, which
    the modules modelled here never produce from their initial state (proved for each). *)
Definition star_one (s : S) (pend : bool) (d : datum) : option (S * bool * list datum) :=
  let '(s', st, o) := st_conv m s d in
  match st with
  | NEXTPHASE => Some (s', false, o)
  | SUBMATCH => Some (s', true, o)
  | DEADEND => if pend then None else Some (s', false, o ++ [d])
  | _ => None
  end.
Fixpoint star_feed (s : S) (pend : bool) (ds : list datum) : option (S * bool * list datum) :=
  match ds with
  | [] => Some (s, pend, [])
  | d :: r =>
      match star_one s pend d with
      | None => None
      | Some (s1, p1, o1) =>
          match star_feed s1 p1 r with
          | None => None
          | Some (s2, p2, o2) => Some (s2, p2, o1 ++ o2)
          end
      end
  end.
(** A complete stream: all data, then flush (lines 1001-1013, 758-771). *)
Definition star_stream (s : S) (ds : list datum) : option (S * list datum) :=
  match star_feed s false ds with
  | None => None
  | Some (s1, p, o) => if p then let '(s2, f) := st_flush m s1 in Some (s2, o ++ f) else Some (s1, o)
  end.
End Run.
