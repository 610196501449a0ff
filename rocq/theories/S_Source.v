(** Specification: what a codec source file means.  A line is a pattern (a list of symbol ranges: a byte,
    ',' = 256, or '*' = anything) and an output; it stands for one dictionary entry per word that the
    pattern matches. *)
From Verif Require Import Base Types S_Dict M_Mktable.

Definition range (lo hi : N) : list N := filter (fun c => (lo <=? c)%N && (c <=? hi)%N) (map N.of_nat (seq 0 257)).
(** The words a pattern matches. *)
Fixpoint words (p : list (N * N)) : list (list N) :=
  match p with
  | [] => [[]]
  | (lo, hi) :: p' => flat_map (fun c => map (cons c) (words p')) (range lo hi)
  end.

(** An ordinary line: not case-insensitive ('!'), no callback ('?'), a non-empty pattern. *)
Record plain (ln : sline) : Prop := {
  pl_ci : sl_ci ln = false;
  pl_cb : sl_cb ln = false;
  pl_pat : sl_pat ln <> [];
  pl_rng : Forall (fun r => (fst r <= snd r /\ snd r <= 256)%N) (sl_pat ln)
}.

(** The dictionary of a source file; with several entries for a word the first counts ([lookup]). *)
Definition source_dict (lines : list sline) : dict :=
  flat_map (fun ln => map (fun w => (w, cells (sl_out ln))) (words (sl_pat ln))) lines.

(** ** Source text *)
(** A pattern symbol as written in a source file. *)
Inductive psym := PByte (b : N) | PSep | PAny.
Definition bounds (s : psym) : N * N := match s with PByte b => (b, b) | PSep => (256, 256)%N | PAny => (0, 256)%N end.

(** A source entry: pattern and replacement data. *)
Record sentry := mkEntry { en_pat : list psym; en_out : list datum }.

Definition hex_char (d : N) : N := if (d <? 10)%N then (48 + d)%N else (55 + d)%N.
Definition hex_byte (b : N) : list N := [hex_char (b / 16); hex_char (b mod 16)].
Definition text_psym (s : psym) : list N := match s with PByte b => hex_byte b | PSep => [44%N] | PAny => [42%N] end.
Fixpoint text_data (ds : list datum) : list N :=
  match ds with
  | [] => []
  | [d] => flat_map hex_byte d
  | d :: r => flat_map hex_byte d ++ 44%N :: text_data r
  end.
(** "pattern TAB output NEWLINE" *)
Definition text_entry (e : sentry) : list N := flat_map text_psym (en_pat e) ++ 9%N :: text_data (en_out e) ++ [10%N].
Definition text_file (es : list sentry) : list N := flat_map text_entry es.

Record entry_ok (e : sentry) : Prop := {
  eo_pat : en_pat e <> [];
  eo_bytes : Forall (fun s => match s with PByte b => (b < 256)%N | _ => True end) (en_pat e);
  eo_data : Forall (Forall (fun b => (b < 256)%N)) (en_out e);
  eo_last : en_out e <> [] -> last (en_out e) [] <> [];
  eo_len : length (text_entry e) <= 1023
}.

(** The dictionary of a source file. *)
Definition file_dict (es : list sentry) : dict :=
  flat_map (fun e => map (fun w => (w, en_out e)) (words (map bounds (en_pat e)))) es.

(** ** Which line applies to a symbol string *)
Definition sym_matches (s : psym) (c : N) : Prop := match s with PByte b => c = b | PSep => c = 256%N | PAny => (c <= 256)%N end.
Definition matches (e : sentry) (w : list N) : Prop := Forall2 sym_matches (en_pat e) w.
(** [e] is the first line of the file whose pattern matches [w]. *)
Definition first_match (es : list sentry) (w : list N) (e : sentry) : Prop :=
  exists a b, es = a ++ e :: b /\ matches e w /\ Forall (fun x => ~ matches x w) a.
(** Some line matches a longer string beginning with [w]. *)
Definition extended (es : list sentry) (w : list N) : Prop := exists e x, In e es /\ x <> [] /\ matches e (w ++ x).

(** ** Conversions given by sources: phases with the source files of their codecs *)
Definition meaning (c : list (ptype * list (list sentry))) : list (ptype * list dict) := map (fun x => (fst x, map file_dict (snd x))) c.
Definition texts (c : list (ptype * list (list sentry))) : list (ptype * list (list N)) := map (fun x => (fst x, map text_file (snd x))) c.
