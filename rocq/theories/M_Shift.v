(** The mixed single/double byte EBCDIC codecs as codecs of a whole conversion: modules/from/EBCDIC.c and modules/to/EBCDIC.c
    (included by modules/{from,to}/IBM-{930,933,935,937,939}.c) in the callback interface of M_Engine.  The private state is
    my_s.status ("in MBCS mode"); state.data is the list of cells [sd].  A callback without state.data does not occur with the
    tables of these codecs (all "?" lines carry data); the result given for it here has no meaning. *)
From Verif Require Import Base Types M_Engine M_Create M_Modules M_UTF8 M_UTF16.

(** modules/from/EBCDIC.c:26-57 *)
Definition ibm_from_cb (p : priv) (d : datum) (i : nat) (sd : list datum) : cbres priv :=
  match p, sd with
  | PShift st, c :: _ =>
      match c with
      | [1; 0x0E]%N => mkCb priv (PShift true) i NEXTPHASE []
      | [1; 0x0F]%N => mkCb priv (PShift false) i NEXTPHASE []
      | _ => mkCb priv p i (if st then SUBMATCH else MATCH) []
      end
  | _, _ => mkCb priv p i DEADEND []
  end.
(** modules/from/EBCDIC.c:15-18, modules/to/EBCDIC.c:16-19 (cbinit) *)
Definition ibm_init (p : priv) : priv := match p with PShift _ => PShift false | _ => p end.
(** [g]: uninitialised memory (cbcreate, lines 9-13) *)
Definition ibm_dec (tab : table) (g : bool) : ecodec priv := mkEc priv tab (Some ibm_from_cb) None (Some ibm_init) (PShift g).

(** modules/to/EBCDIC.c:49-103: SO or SI, then the code; while in MBCS mode the phase is left as M_Engine.data_hold says
    (lines 82-98). *)
Definition ibm_to_cb (p : priv) (d : datum) (i : nat) (sd : list datum) : cbres priv :=
  match p, sd with
  | PShift st, c :: _ =>
      if (1 <? length c)%nat && negb st then mkCb priv (PShift true) i NOOP ([0x0E]%N :: sd)            (* lines 58-68 *)
      else if (length c =? 1)%nat && st then mkCb priv (PShift false) i NEXTPHASE ([0x0F]%N :: sd)      (* lines 69-80 *)
      else mkCb priv p i (if st then NOOP else NEXTPHASE) sd
  | _, _ => mkCb priv p i DEADEND []
  end.
(** modules/to/EBCDIC.c:21-40 *)
Definition ibm_to_flush (p : priv) : priv * list datum := match p with PShift true => (PShift false, [[0x0F]]%N) | _ => (p, []) end.
Definition ibm_enc (tab : table) (g : bool) : ecodec priv := mkEc priv tab (Some ibm_to_cb) (Some ibm_to_flush) (Some ibm_init) (PShift g).

(** bsdconv_create("IBM-9xx:M1:...:Mn:dst"), bsdconv_create("src:M1:...:Mn:IBM-9xx"); no alias is involved (modules/{from,to}/alias). *)
Definition from_ibm (tab : table) (g : bool) (ms : list (ecodec priv)) (dst : charset) : inst priv :=
  new_instance priv ((FROM, [ibm_dec tab g]) :: map (fun m => (INTER, [m])) ms ++ [(TO, encoder_of dst)]).
Definition to_ibm (src : charset) (ms : list (ecodec priv)) (tab : table) (g : bool) (t8 : u8) (t16 : u16) : inst priv :=
  new_instance priv ((FROM, decoder_of src t8 t16) :: map (fun m => (INTER, [m])) ms ++ [(TO, [ibm_enc tab g])]).
