(** Model of the single byte charsets: codecs made of tables only (modules/from/_CP125x.txt, _CP874.txt, _ISO-8859-1.txt and
    FALLBACK-UNICODE.txt, modules/to/_CP125x.txt ...), compiled by the model of mktable. *)
From Verif Require Import Base Types M_Engine M_Create M_Callback M_Modules S_Source S_Charsets D_Charsets.
Local Open Scope N_scope.

(** A line of a table without wildcards. *)
Definition rows_src (r : list (list N * list N)) : list sentry := map (fun x => mkEntry (map PByte (fst x)) [snd x]) r.
(** The sources of the table codecs of an alias, in its order: modules/from/alias:13-21, 32 and modules/to/alias:15-18, 25. *)
Definition from_tables (p : page) : list (list sentry) :=
  match p with
  | CP1251 => [rows_src cp1251_from; ascii_from_src; rows_src fallback_from]
  | CP1252 => [rows_src cp1252_from; ascii_from_src; rows_src fallback_from]
  | CP1253 => [rows_src cp1253_from; ascii_from_src; rows_src fallback_from]
  | CP1254 => [rows_src cp1254_from; ascii_from_src; rows_src fallback_from]
  | CP1255 => [rows_src cp1255_from; ascii_from_src; rows_src fallback_from]
  | CP1256 => [rows_src cp1256_from; ascii_from_src; rows_src fallback_from]
  | CP1257 => [rows_src cp1257_from; ascii_from_src; rows_src fallback_from]
  | CP1258 => [rows_src cp1258_from; ascii_from_src; rows_src fallback_from]
  | CP874 => [ascii_from_src; rows_src cp874_from; rows_src fallback_from]
  | LATIN1 => [ascii_from_src; rows_src iso_8859_1_from]
  end.
Definition to_tables (p : page) : list (list sentry) :=
  match p with
  | CP1251 => [rows_src cp1251_to; ascii_to_src]
  | CP1252 => [rows_src cp1252_to; ascii_to_src]
  | CP1253 => [rows_src cp1253_to; ascii_to_src]
  | CP874 => [rows_src cp874_to; ascii_to_src]
  | LATIN1 => [rows_src iso_8859_1_to; ascii_to_src]
  | _ => []
  end.
Definition tables (l : list (list sentry)) : list (ecodec priv) := map (fun s => tab_codec (compiled s)) l.
Definition page_decoder (p : page) := tables (from_tables p).
Definition page_encoder (p : page) := tables (to_tables p).
(** "CP1251:UTF-8", "UTF-8:CP1251", "CP1251:CP1251" *)
Definition page_reader (p : page) (dst : charset) : inst priv := new_instance priv [(FROM, page_decoder p); (TO, encoder_of dst)].
Definition page_writer (src : charset) t8 t16 (p : page) : inst priv := new_instance priv [(FROM, decoder_of src t8 t16); (TO, page_encoder p)].
Definition page_to_page (p q : page) : inst priv := new_instance priv [(FROM, page_decoder p); (TO, page_encoder q)].
