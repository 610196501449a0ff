(** Specification of the single byte charsets: which character a byte stands for. *)
From Verif Require Import Base S_Pages.
Local Open Scope N_scope.

Inductive page := CP1251 | CP1252 | CP1253 | CP1254 | CP1255 | CP1256 | CP1257 | CP1258 | CP874 | LATIN1.
(** ISO-8859-1 here: the printable half A0..FF only (bsdconv leaves out 80..9F). *)
Definition upper (p : page) : list (option N) :=
  match p with
  | CP1251 => upper_cp1251 | CP1252 => upper_cp1252 | CP1253 => upper_cp1253 | CP1254 => upper_cp1254 | CP1255 => upper_cp1255
  | CP1256 => upper_cp1256 | CP1257 => upper_cp1257 | CP1258 => upper_cp1258 | CP874 => upper_cp874
  | LATIN1 => repeat None 32 ++ map (fun n => Some (N.of_nat n)) (seq 160 96)
  end.
(** The character of a byte, where the code page has one. *)
Definition stands_for (p : page) (b c : N) : Prop := (b < 128 /\ c = b) \/ (128 <= b < 256 /\ nth_error (upper p) (N.to_nat (b - 128)) = Some (Some c)).
(** How a byte is read: as the code page says; bytes it does not use are read as the control characters of the same numbers, except in
    ISO-8859-1, where these and NUL are not read at all. *)
Inductive reads_as (p : page) (b c : N) : Prop :=
| ra_page : stands_for p b c -> (p = LATIN1 -> b <> 0) -> reads_as p b c
| ra_unused : b < 256 -> (forall x, ~ stands_for p b x) -> p <> LATIN1 -> c = b -> reads_as p b c.
(** The charsets that can be written. *)
Definition has_encoder (p : page) : Prop := In p [CP1251; CP1252; CP1253; CP874; LATIN1].
(** Characters the tables to/_CP1253 and to/_CP874 spoil: U+0080 to U+00FF. *)
Definition spoiled (p : page) (c : N) : Prop := (p = CP1253 \/ p = CP874) /\ 128 <= c < 256.
(** How a character is written: as the byte that stands for it; the small tilde, where the charset does not have it, as "~"; otherwise not at all. *)
Inductive put_as (p : page) (c : N) : list N -> Prop :=
| pa_code b : stands_for p b c -> c <> 0 -> ~ spoiled p c -> put_as p c [b]
| pa_tilde : c = 0x2DC -> (forall b, ~ stands_for p b c) -> put_as p c [0x7E]
| pa_lost : c <> 0x2DC -> (forall b, ~ stands_for p b c) \/ c = 0 \/ spoiled p c -> put_as p c [].
(** A written text: the characters' bytes in order, and how many characters are lost. *)
Inductive put_text (p : page) : list N -> list N -> nat -> Prop :=
| pt_none : put_text p [] [] 0
| pt_char c cps w W n : put_as p c w -> put_text p cps W n -> put_text p (c :: cps) (w ++ W) (match w with [] => S n | _ => n end).
