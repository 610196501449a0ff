(** Conversions in which the last member of an intermediate phase is COUNT, as in "_NFC-MAP,COUNT#ERR" (modules/inter/_NFC.c) and in
    the alias look-up "ASCII:ALIAS-FROM,COUNT#ERR:ASCII" (src/libbsdconv_module.c:39-52). *)
From Verif Require Import Base Types M_Engine M_Create M_Callback M_UTF8 M_UTF16 M_Modules M_Fallback M_Star M_Inter M_Stars M_Stage M_Bonus S_Source.

(** [SCount ess f n]: the sources [ess], compiled, then modules/inter/COUNT.c:10-58 with the filter of its FOR argument; [n]: the counter when
    the instance is created.  The counter of the instance (ctx->...->val, named by COUNT's argument) is the module's private state.
    [SBonus es n]: one of the bonus modules (M_Bonus) with its table, the counter SCORE at [n] when the instance is created. *)
Inductive stage : Type :=
| SLink (k : link)
| SCount (ess : list (list sentry)) (f : option (datum -> bool)) (n : N)
| SBonus (es : list sentry) (n : N).
Definition stage_type (k : stage) : ptype := match k with SLink k => link_type k | SCount _ _ _ | SBonus _ _ => INTER end.
Definition stage_codecs (t8 : u8) (t16 : u16) (k : stage) : list (ecodec priv) :=
  match k with
  | SLink k => link_codecs t8 t16 k
  | SCount ess f n => map (fun es => tab_codec (compiled es)) ess ++ [count_mod f n]
  | SBonus es n => [bonus_mod es n]
  end.
(** The instance bsdconv_create makes (src/libbsdconv.c:387-545; M_Create.new_instance). *)
Definition staged (t8 : u8) (t16 : u16) (c : list stage) : inst priv := new_instance priv (map (fun k => (stage_type k, stage_codecs t8 t16 k)) c).
