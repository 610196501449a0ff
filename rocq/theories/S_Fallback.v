(** Specification of conversions whose phases may end with a fallback. *)
From Verif Require Import Base Types S_Engine S_Dict S_Source S_Convert.

(** Type, dictionaries, and what the fallback (if any) puts in the place of a symbol that no dictionary matches. *)
Definition fb_phase := (ptype * list dict * option (list datum))%type.

(** With a fallback: match by match; where nothing matches, one symbol is replaced. *)
Inductive substitutes (t : ptype) (Ds : list dict) (r : list datum) : list datum -> list datum -> Prop :=
| sb_end : substitutes t Ds r [] []
| sb_match ds n o out : chosen t Ds ds n o -> substitutes t Ds r (skipn n ds) out -> substitutes t Ds r ds (o ++ out)
| sb_other x ds out : unmatched t Ds (x :: ds) -> substitutes t Ds r ds out -> substitutes t Ds r (x :: ds) (r ++ out).

(** Phase after phase; input errors and output errors come only from phases without a fallback. *)
Inductive run_fb : list fb_phase -> list datum -> list datum -> nat -> nat -> Prop :=
| fb_nil ds : run_fb [] ds ds 0 0
| fb_plain t Ds r ds mid out e ie oe :
    run_phase t Ds (seen_by t ds) mid e -> run_fb r mid out ie oe ->
    run_fb ((t, Ds, None) :: r) ds out ((match t with FROM => e | _ => 0 end) + ie) ((match t with TO => e | _ => 0 end) + oe)
| fb_subst t Ds d r ds mid out ie oe :
    substitutes t Ds d (seen_by t ds) mid -> run_fb r mid out ie oe ->
    run_fb ((t, Ds, Some d) :: r) ds out ie oe.

(** Every decoding (encoding) phase has a fallback. *)
Definition covered (t : ptype) (c : list fb_phase) : Prop := forall Ds fb, In (t, Ds, fb) c -> fb <> None.

(** The meaning of compiled sources, and which lists of sources make a conversion: as S_Convert.conv_ok, and the fallback's data are bytes. *)
Definition fb_meaning (c : list (ptype * list (list sentry) * option (list datum))) : list fb_phase :=
  map (fun x => (fst (fst x), map file_dict (snd (fst x)), snd x)) c.
Definition byte_data (d : datum) : Prop := Forall (fun b => (b < 256)%N) d.
Record fb_ok (c : list (ptype * list (list sentry) * option (list datum))) : Prop := {
  fo_first : exists es fb r, c = (FROM, es, fb) :: r;
  fo_types : forall t ess fb, In (t, ess, fb) c -> (t = FROM \/ t = INTER \/ t = TO) /\ (ess <> [] \/ fb <> None);
  fo_adj : forall i ess fb ess' fb', nth_error c i = Some (FROM, ess, fb) -> nth_error c (S i) <> Some (FROM, ess', fb');
  fo_entries : forall t ess fb, In (t, ess, fb) c -> Forall (Forall entry_ok) ess;
  fo_sub : forall t ess fb es w o, In (t, ess, fb) c -> In es ess -> lookup (file_dict es) w = Some o -> has_longer (file_dict es) w = true -> o <> [];
  fo_data : forall t ess d, In (t, ess, Some d) c -> Forall byte_data d
}.
