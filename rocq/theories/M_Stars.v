(** The stateful intermediate modules of M_Inter and M_Norm as codecs of a conversion. *)
From Verif Require Import Base Types M_Engine M_Create M_Callback M_UTF8 M_UTF16 M_Modules M_Star M_Inter M_Norm M_Nfc.
Local Open Scope N_scope.

(** A module with the one-line source "*<TAB>?": its cbconv, its cbflush ([fl] = false: none), its cbinit.  The callback leaves
    this_phase->i alone.  A private state that the module did not store itself never occurs. *)
Definition star_codec {S : Type} (inj : S -> priv) (prj : priv -> option S) (m : star S) (fl : bool) (ini : option (S -> S)) (s0 : S) : ecodec priv :=
  mkEc priv star_table
    (Some (fun p d i _ => match prj p with Some s => let '(s', st, o) := st_conv m s d in mkCb priv (inj s') i st o | None => mkCb priv p i NOMATCH [] end))
    (if fl then Some (fun p => match prj p with Some s => let '(s', o) := st_flush m s in (inj s', o) | None => (p, []) end) else None)
    (match ini with Some g => Some (fun p => match prj p with Some s => inj (g s) | None => p end) | None => None end)
    (inj s0).

Definition get_width (p : priv) := match p with PWidth w => Some w | _ => None end.
Definition get_trim (p : priv) := match p with PTrim w => Some w | _ => None end.
Definition get_pad (p : priv) := match p with PPad w => Some w | _ => None end.
Definition get_unpad (p : priv) := match p with PUnpad w => Some w | _ => None end.
Definition get_num (p : priv) := match p with PNum w => Some w | _ => None end.
Definition get_hc (p : priv) := match p with PHc w => Some w | _ => None end.
Definition get_marks (p : priv) := match p with PMarks w => Some w | _ => None end.
Definition get_nfc (p : priv) := match p with PNfc w => Some w | _ => None end.
Definition get_cur (p : priv) := match p with PCur w => Some w | _ => None end.
Definition get_unit (p : priv) := match p with PNil => Some tt | _ => None end.
Definition put_unit (_ : unit) : priv := PNil.

(** modules/inter/WIDTH.c: no cbinit, no cbflush; [w]: the counters when the instance is created (0 unless other modules use
    the same names). *)
Definition width_mod (w : widths) := star_codec PWidth get_width WIDTH false None w.
(** modules/inter/TRIM-WIDTH.c:47-51 (cbinit) *)
Definition trim_mod (aw width garbage : Z) := star_codec PTrim get_trim TRIM_WIDTH false (Some trim_init) (trim_create aw width garbage).
(** modules/inter/AMBIGUOUS-PAD.c:11-14, AMBIGUOUS-UNPAD.c:15-19 (cbinit); the memory is uninitialised before *)
Definition pad_mod (garbage : bool) := star_codec PPad get_pad AMBIGUOUS_PAD false (Some pad_init) garbage.
Definition unpad_mod (garbage : unpad) := star_codec PUnpad get_unpad AMBIGUOUS_UNPAD false (Some unpad_init) garbage.
(** modules/inter/COUNT.c: no cbinit *)
Definition count_mod (f : option (datum -> bool)) (n : N) := star_codec PNum get_num (COUNT f) false None n.
(** modules/inter/PASS.c:42-45 (cbinit) *)
Definition pass_mod (f : option (datum -> bool)) (limit garbage : N) := star_codec PNum get_num (PASS f limit) false (Some (fun _ => 0)) garbage.
(** modules/inter/SCORE.c: no cbinit *)
Definition score_mod (f : datum -> N) (n : N) := star_codec PNum get_num (SCORE f) false None n.
(** modules/inter/_NF-HANGUL-DECOMPOSITION.c: only cbconv *)
Definition hdecomp_mod := star_codec put_unit get_unit HANGUL_DECOMPOSITION false None tt.
(** modules/inter/_NF-HANGUL-COMPOSITION.c:23-26 (cbinit), 134-169 (cbflush) *)
Definition hcomp_mod (garbage : hcomp) := star_codec PHc get_hc HANGUL_COMPOSITION true (Some hcomp_init) garbage.
(** modules/inter/_NF-ORDER.c: cbflush, no cbinit; the list is empty after cbcreate (lines 20-27) *)
Definition order_mod := star_codec PMarks get_marks ORDER true None [].
(** modules/inter/_NFC.c: cbinit, cbflush; [b], [k]: uninitialised memory *)
Definition nfc_mod (comb : datum -> datum -> option datum) (b : bool) (k : N) := star_codec PNfc get_nfc (NFC comb) true (Some nfc_init) (nfc_create b k).
(** modules/inter/REPLACE.c:49-52 (cbinit); the cursor is uninitialised before *)
Definition REPLACE (from to : list datum) : star nat := mkStar (replace_conv from to) no_flush.
Definition replace_mod (from to : list datum) (garbage : nat) := star_codec PCur get_cur (REPLACE from to) false (Some (fun _ => 0%nat)) garbage.

(** bsdconv_create("src:M1:...:Mn:dst") *)
Definition via (src : charset) (ms : list (ecodec priv)) (dst : charset) (t8 : u8) (t16 : u16) : inst priv :=
  new_instance priv ((FROM, decoder_of src t8 t16) :: map (fun m => (INTER, [m])) ms ++ [(TO, encoder_of dst)]).
