(** Independent specification of conversion strings: their abstract syntax, how it is written,
    and the role each phase plays. Nothing here refers to the parser. *)
From Verif Require Import Base Types.

(** Abstract syntax: a conversion is a list of segments, a segment a list of phases, a phase a
    list of codecs (a [codec] is a name and an optional argument text). *)
Definition a_phase := list codec.
Definition a_segment := list a_phase.
Definition a_conv := list a_segment.

(** Concrete syntax. *)
Fixpoint sepby (c : ascii) (l : list str) : str :=
  match l with
  | [] => []
  | [x] => x
  | x :: l' => x ++ c :: sepby c l'
  end.

Definition write_codec (c : codec) : str :=
  desc c ++ match argv c with None => [] | Some a => "#"%char :: a end.
Definition write_phase (p : a_phase) : str := sepby "," (map write_codec p).
Definition write_segment (s : a_segment) : str := sepby ":" (map write_phase s).
Definition write (v : a_conv) : str := sepby "|" (map write_segment v).

(** Well-formedness: nothing is empty, names and arguments contain no delimiter. *)
Definition free_of (cs : list ascii) (s : str) : Prop := forall c, In c cs -> ~ In c s.
Definition wf_codec (c : codec) : Prop :=
  desc c <> [] /\ free_of ["|"; ":"; ","; "#"]%char (desc c) /\
  (forall a, argv c = Some a -> free_of ["|"; ":"; ","]%char a).
Definition wf (v : a_conv) : Prop :=
  v <> [] /\
  (forall s, In s v -> s <> [] /\
     forall p, In p s -> p <> [] /\ forall c, In c p -> wf_codec c).

(** Role of the k-th phase (from 0) of a segment of n phases. *)
Definition role (n k : nat) : ptype :=
  if n =? 1 then INTER
  else if k =? 0 then FROM
  else if k =? n - 1 then TO
  else INTER.

Definition phases_of_segment (s : a_segment) : list phase :=
  map (fun kp => mkPhase (role (length s) (fst kp)) (snd kp)) (combine (seq 0 (length s)) s).
Definition phases_of (v : a_conv) : list phase := concat (map phases_of_segment v).

(** Normal form produced by re-serialising: an explicitly empty argument disappears, and a
    one-phase segment that is not the first is absorbed by the segment before it. *)
Definition norm_codec (c : codec) : codec :=
  mkCodec (desc c) (match argv c with Some [] => None | a => a end).
Definition norm_args (v : a_conv) : a_conv := map (map (map norm_codec)) v.
Fixpoint absorb (cur : a_segment) (rest : a_conv) : a_conv :=
  match rest with
  | [] => [cur]
  | [p] :: rest' => absorb (cur ++ [p]) rest'
  | s :: rest' => cur :: absorb s rest'
  end.
Definition normal (v : a_conv) : a_conv :=
  match norm_args v with [] => [] | s :: r => absorb s r end.

(** Giving an extra argument to a codec: appended to its own arguments with '&'. *)
Definition give_arg (a : str) (c : codec) : codec :=
  match a with
  | [] => c
  | _ => mkCodec (desc c) (Some match argv c with None => a | Some b => b ++ "&"%char :: a end)
  end.

(** Index convention: n-th from the front, or from the back when negative. *)
Definition position (len : nat) (n : Z) : nat :=
  Z.to_nat (if n <? 0 then n + Z.of_nat len else n)%Z.
Definition in_range (len : nat) (n : Z) : Prop := (- Z.of_nat len <= n < Z.of_nat len)%Z.

(** list editing *)
Definition insert_at {A} (i : nat) (x : A) (l : list A) : list A := firstn i l ++ x :: skipn i l.
Definition replace_at {A} (i : nat) (x : A) (l : list A) : list A := firstn i l ++ x :: skipn (S i) l.

(** All codec names mentioned in a text, whatever the delimiters between them. *)
Definition is_delim (c : ascii) : bool := Ascii.eqb c "|" || Ascii.eqb c ":" || Ascii.eqb c ",".
Fixpoint words (s : str) : list str :=
  match s with
  | [] => [[]]
  | x :: s' => if is_delim x then [] :: words s'
               else match words s' with [] => [[x]] | w :: ws => (x :: w) :: ws end
  end.
Fixpoint before_hash (s : str) : str :=
  match s with [] => [] | x :: s' => if Ascii.eqb x "#" then [] else x :: before_hash s' end.
Definition names (s : str) : list str := map before_hash (words s).

(** An alias text is tidy when an argument never precedes a phase separator inside one
    comma-separated member (all shipped aliases are). *)
Fixpoint tidy_from (hash : bool) (s : str) : bool :=
  match s with
  | [] => true
  | x :: s' => if Ascii.eqb x "," then tidy_from false s'
               else if Ascii.eqb x "#" then tidy_from true s'
               else if is_delim x then negb hash && tidy_from hash s'
               else tidy_from hash s'
  end.
Definition tidy (s : str) : bool := tidy_from false s.

(** The alias relation is acyclic: mentioned names have strictly smaller rank. *)
Definition acyclic (alias : ptype -> str -> option str) : Prop :=
  exists rank : str -> nat, forall t n a, alias t n = Some a ->
    tidy a = true /\ forall m, In m (names a) -> rank m < rank n.
