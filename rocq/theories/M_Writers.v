(** Encoder callbacks that write data in their own way: modules/to/ASCII-HTML-UNICODE-IMG.c (alias HTML-IMG, modules/to/alias) and
    modules/to/RAW.c; both have the one-line source "*<TAB>?". *)
From Coq Require Import String.
From Verif Require Import Base Types M_Engine M_Callback M_Create M_Modules M_UTF8 M_UTF16 M_Escape.
Local Open Scope N_scope.

Definition chars (s : string) : list N := map N_of_ascii (list_ascii_of_string s).
(** modules/to/ASCII-HTML-UNICODE-IMG.c:28, 38: the text around the code. *)
Definition img_head : list N := chars "<img class=""unicode_img"" src=""http://www.unicode.org/cgi-bin/refglyph?24-".
Definition img_tail : list N := chars """ />".
(** sprintf "%X" of an unsigned char (line 31) *)
Definition hexX (b : N) : list N := if b <? 16 then [hexc b] else hex02 b.
(** modules/to/ASCII-HTML-UNICODE-IMG.c:9-47: only data of type 01; the first byte of the code with %X, the others with %02X.  The buffer of
    128 bytes is assumed to be large enough (codes of up to 25 bytes).  Line 13 reads the first byte of the datum, which does not exist
    in an empty one; this is taken for "not type 01". *)
Definition img_put (d : datum) : option (list datum) :=
  match d with
  | 1 :: l => Some [img_head ++ match l with [] => [] | x :: r => hexX x ++ flat_map hex02 r end ++ img_tail]
  | _ => None
  end.
(** modules/to/RAW.c:4-19: the datum without its first byte.  An empty datum makes the length wrap around; taken for "not matched". *)
Definition raw_put (d : datum) : option (list datum) := match d with [] => None | _ :: l => Some [l] end.

(** The codec of such a module. *)
Definition put_enc (f : datum -> option (list datum)) : ecodec priv := mkEc priv star_table (Some (datum_cb f)) None None PNil.
(** bsdconv_create("src:ASCII,WRITER") and ("src:WRITER"). *)
Definition kept_writer (src : charset) (t8 : u8) (t16 : u16) (f : datum -> option (list datum)) : inst priv :=
  new_instance priv [(FROM, decoder_of src t8 t16); (TO, [ascii_enc; put_enc f])].
Definition plain_writer (src : charset) (t8 : u8) (t16 : u16) (f : datum -> option (list datum)) : inst priv :=
  new_instance priv [(FROM, decoder_of src t8 t16); (TO, [put_enc f])].
