(** modules/from/BSDCONV.c and modules/to/BSDCONV.c (the sources are the line "*<TAB>?"). *)
From Verif Require Import Base Types M_Engine M_Raw M_Callback M_Escape M_Modules.

(** struct my_s of modules/from/BSDCONV.c:11-16.  data.data is NULL, or allocated, or freed but still stored; the bytes are
    data.data[0..len).  [n_bytes] and [n_flag] of a new instance are uninitialised memory. *)
Inductive nptr := NNull | NLive | NDangling.
Inductive nflag := NClear | NA | NB.
Record note := mkNote { n_ptr : nptr; n_bytes : list N; n_flag : nflag }.
Notation nphase := (ephase note).
(** cbcreate, lines 18-23. *)
Definition nt_create (bytes : list N) (f : nflag) : note := mkNote NNull bytes f.
(** cbinit, lines 25-32: the block is freed, the pointer is kept; [None]: it was already freed. *)
Definition nt_init (t : note) : option note :=
  match n_ptr t with
  | NNull => Some (mkNote NNull [] NClear)
  | NLive => Some (mkNote NDangling [] NClear)
  | NDangling => None
  end.
(** cbflush, lines 42-46: one node that refers to the block. *)
Definition nt_flush (t : note) : note * list datum := (t, [n_bytes t]).
Definition nt_get (th : nphase) : option note := option_map (e_priv note) (this_codec note th).
Definition nt_put (th : nphase) (t : note) : nphase :=
  match this_codec note th with
  | Some c => set_codecs note th (list_upd (p_codecs note th) (p_index note th) (set_priv note c t))
  | None => th
  end.
Definition nt_stat (th : nphase) (s : status) : nphase := set_state note th (with_status (p_state note th) s).
Definition set_last (l : list N) (f : N -> N) : list N := match rev l with [] => [] | x :: r => rev (f x :: r) end.

(** cbconv, lines 48-106. *)
Definition nt_conv (pv th : nphase) : option (nphase * nphase * nat) :=
  match curr_node note pv th, nt_get th with
  | Some node, Some t =>
      match nth_error node (p_i note th) with
      | None => None
      | Some d =>
          match hexv d with
          | None =>
              if p_fmatch note th then (* lines 55-72 *)
                let th1 := app_tail note (set_flags note th false false false) [n_bytes t] in
                obind (listfree note pv (p_bak note th1)) (fun pv' =>
                obind (reset note (set_i note (set_curr note (set_bak note th1 0) 0) (p_headlen note th1))) (fun th2 =>
                Some (pv', nt_stat (nt_put th2 (mkNote NNull (n_bytes t) NClear)) NOOP, 0%nat)))
              else (* lines 73-78 *)
                match n_ptr t with
                | NDangling => None
                | _ => Some (pv, nt_stat (nt_put th (mkNote NNull (n_bytes t) NClear)) DEADEND, 0%nat)
                end
          | Some v =>
              (* lines 80-85 *)
              let t1 := match n_flag t with NClear => mkNote NNull [] NA | _ => t end in
              (* lines 87-90 *)
              let st := match n_bytes t1 with [] => CONTINUE | _ => SUBMATCH end in
              (* lines 92-104; lines 101-102 work on a char *)
              let t2 := match n_flag t1 with
                        | NA => mkNote NLive (n_bytes t1 ++ [v]) NB
                        | _ => mkNote (n_ptr t1) (set_last (n_bytes t1) (fun x => N.lor ((x * 16) mod 256) v)) NA
                        end in
              Some (pv, nt_stat (nt_put th t2) st, 0%nat)
          end
      end
  | _, _ => None
  end.
Definition nt_codec (t : note) : ecodec note := mkEc note star_table None (Some nt_flush) None t.

(** modules/to/BSDCONV.c:7-26. *)
Definition nt_enc_put (d : datum) : option (list datum) := Some [flat_map hex02 d].
Definition nt_enc : ecodec priv := mkEc priv star_table (Some (datum_cb nt_enc_put)) None None PNil.
