(** The ISO-2022-JP decoder modules/from/_JIS.c (source "*<TAB>?", modules/from/_JIS.txt) in the callback interface of M_Engine.
    [t1], [t8], [t12]: the tables of the codecs _JIS0201, _JIS0208, _JIS0212 that cbcreate loads (lines 27-42).  The private
    state is [PJis mode state cstate] with MODE_ASCII 0, MODE_JIS0201 1, MODE_JIS0208 2, MODE_JIS0212 3 (lines 7-12); there is no cbinit. *)
From Verif Require Import Base Types M_Engine M_Create M_Callback M_UTF8 M_UTF16 M_Modules.
Local Open Scope N_scope.

Section J.
Variables t1 t8 t12 : table.
Definition jis_tab (mode : N) : table := if mode =? 1 then t1 else if mode =? 2 then t8 else t12.
(** r->mode=m; r->cstate=read_state(codec of m, 0); r->state=0; status NEXTPHASE (lines 113-124, 145-154, 164-168).  An
    empty table does not occur. *)
Definition jis_enter (m : N) (p : priv) : priv * status * list datum :=
  match read_state (jis_tab m) 0 with Some c => (PJis m 0 c, NEXTPHASE, []) | None => (p, NOMATCH, []) end.
(** modules/from/_JIS.c:56-179 for the byte [d] at this_phase->i.  Reading outside the table (NOMATCH here) does not occur with
    compiled tables. *)
Definition jis_byte (p : priv) (d : N) : priv * status * list datum :=
  match p with
  | PJis mode st c =>
      if st =? 0 then
        if d =? 0x1B then (PJis mode 0x1B c, CONTINUE, [])                       (* lines 67-70 *)
        else if mode =? 0 then (p, DEADEND, [])                                  (* lines 73-75 *)
        else match get_offset c d with                                           (* lines 76-97 *)
             | None => (p, NOMATCH, [])
             | Some off =>
                 match read_state (jis_tab mode) off with
                 | None => (p, NOMATCH, [])
                 | Some s =>
                     match t_status s with
                     | MATCH => match read_state (jis_tab mode) 0 with Some r => (PJis mode 0 r, NEXTPHASE, t_data s) | None => (p, NOMATCH, []) end
                     | x => (PJis mode 0 s, x, [])
                     end
                 end
             end
      else if st =? 0x1B then                                                    (* lines 102-115 *)
        if d =? 0x24 then (PJis mode 0x1B24 c, CONTINUE, []) else if d =? 0x28 then (PJis mode 0x1B28 c, CONTINUE, []) else (p, DEADEND, [])
      else if st =? 0x1B24 then                                                  (* lines 116-133 *)
        if (d =? 0x40) || (d =? 0x42) then jis_enter 2 p else (p, DEADEND, [])
      else if st =? 0x1B28 then                                                  (* lines 134-162 *)
        if d =? 0x24 then (PJis mode 0x1B2824 c, CONTINUE, [])
        else if d =? 0x42 then (PJis 0 0 c, NEXTPHASE, [])
        else if (d =? 0x49) || (d =? 0x4A) then jis_enter 1 p
        else (p, DEADEND, [])
      else if st =? 0x1B2824 then                                                (* lines 163-174 *)
        if d =? 0x44 then jis_enter 3 p else (p, DEADEND, [])
      else (p, DEADEND, [])
  | _ => (p, NOMATCH, [])
  end.
Definition jis_cb (p : priv) (d : datum) (i : nat) (sd : list datum) : cbres priv :=
  match nth_error d i with
  | Some b => let '(p', st, o) := jis_byte p b in mkCb priv p' i st o
  | None => mkCb priv p i NOMATCH []
  end.
(** cbcreate (lines 23-45); [g]: uninitialised memory *)
Definition jis_dec (g : tstate) : ecodec priv := mkEc priv star_table (Some jis_cb) None None (PJis 0 0 g).
(** bsdconv_create("JIS:dst"): the alias JIS is _JIS,ASCII (modules/from/alias) *)
Definition jis_conv (g : tstate) (dst : charset) : inst priv := new_instance priv [(FROM, [jis_dec g; ascii_dec]); (TO, encoder_of dst)].
End J.
