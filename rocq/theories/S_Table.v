(** What it means for a compiled table to implement a dictionary. *)
From Verif Require Import Base Types M_Engine S_Engine S_Dict.

Inductive wres := WAt (off : nat) | WDead | WUB.

(** Walking a table from the root. *)
Fixpoint walk_from (tab : table) (off : nat) (w : list N) : wres :=
  match w with
  | [] => WAt off
  | v :: w' =>
      match read_state tab off with
      | None => WUB
      | Some s => match get_offset s v with
                  | None => WUB
                  | Some O => WDead
                  | Some (S o) => walk_from tab (S o) w'
                  end
      end
  end.
Definition walk (tab : table) (w : list N) : wres := walk_from tab 0 w.

Definition status_of (m : option (list datum)) (more : bool) : status :=
  match m, more with Some _, true => SUBMATCH | Some _, false => MATCH | None, true => CONTINUE | None, false => DEADEND end.

(** The table implements the dictionary. *)
Record timpl (tab : table) (D : dict) : Prop := {
  ti_root : exists s, read_state tab 0 = Some s /\ t_status s = DEADEND;
  ti_walk : forall w, w <> [] ->
    match walk tab w with
    | WUB => False
    | WDead => has_prefix D w = false
    | WAt o => has_prefix D w = true /\ exists s, read_state tab o = Some s /\
                 t_status s = status_of (lookup D w) (has_longer D w) /\
                 (forall x, lookup D w = Some x -> t_data s = x)
    end
}.

(** The tables of an instance implement the dictionaries of a conversion. *)
Record implements (P : Type) (s : inst P) (c : list (ptype * list dict)) : Prop := {
  im_len : length (i_phases P s) = S (length c);
  im_ph : forall p t Ds, nth_error c p = Some (t, Ds) ->
    exists th, nth_error (i_phases P s) (S p) = Some th /\ p_type P th = t /\
      Forall2 (fun cd D => timpl (e_tab P cd) D) (p_codecs P th) Ds
}.
