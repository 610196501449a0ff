(** Conversions whose phases are of any of the modelled kinds: compiled tables (perhaps ending with ANY), the Unicode encodings,
    stateful intermediate modules. *)
From Verif Require Import Base Types M_Engine M_Create M_Callback M_UTF8 M_UTF16 M_Modules M_Fallback M_Star M_Stars.

(** One phase of the conversion string.
    [LFiles x]: codecs with the sources of [x], compiled by bsdconv-mktable, and ANY last if [x] says so;
    [LDec cs], [LEnc cs]: UTF-8, UTF-16*, UTF-32* (M_Modules);
    [LMod ...]: an intermediate module with the one-line source "*<TAB>?" (M_Stars.star_codec). *)
Inductive link : Type :=
| LFiles (x : fb_source)
| LDec (cs : charset)
| LEnc (cs : charset)
| LMod (S : Type) (inj : S -> priv) (prj : priv -> option S) (m : star S) (fl : bool) (ini : option (S -> S)) (s0 : S).

Definition link_type (k : link) : ptype := match k with LFiles x => fst (fst x) | LDec _ => FROM | LEnc _ => TO | LMod _ _ _ _ _ _ _ => INTER end.
Definition link_codecs (t8 : u8) (t16 : u16) (k : link) : list (ecodec priv) :=
  match k with
  | LFiles x => fb_codecs x
  | LDec cs => decoder_of cs t8 t16
  | LEnc cs => encoder_of cs
  | LMod _ inj prj m fl ini s0 => [star_codec inj prj m fl ini s0]
  end.
(** The instance bsdconv_create makes (src/libbsdconv.c:387-545; M_Create.new_instance). *)
Definition linked (t8 : u8) (t16 : u16) (c : list link) : inst priv := new_instance priv (map (fun k => (link_type k, link_codecs t8 t16 k)) c).
