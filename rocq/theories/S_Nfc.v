(** Specification: canonical composition (The Unicode Standard, section 3.11), for any table of pairs. *)
From Verif Require Import Base Types S_Unicode S_Norm S_Stage.
Local Open Scope N_scope.

(** The primary composites: [comb a b = Some c]. *)
Section C.
Variable comb : datum -> datum -> option datum.
(** Canonical equivalence: the congruence generated by the pairs and by exchanging marks of different combining class. *)
Inductive equivalent : list datum -> list datum -> Prop :=
| eqv_refl ds : equivalent ds ds
| eqv_sym a b : equivalent a b -> equivalent b a
| eqv_trans a b c : equivalent a b -> equivalent b c -> equivalent a c
| eqv_swap u a b w : ccc a <> 0 -> ccc b <> 0 -> ccc a <> ccc b -> equivalent (u ++ a :: b :: w) (u ++ b :: a :: w)
| eqv_pair u a b c w : comb a b = Some c -> equivalent (u ++ a :: b :: w) (u ++ c :: w).
(** Nothing more can be composed: no starter has, behind it and not blocked from it (D115), a character it makes a pair with. *)
Definition unblocked (m : list datum) (c : datum) : Prop := Forall (fun b => ccc b <> 0 /\ ccc b < ccc c) m.
Definition fully_composed (ds : list datum) : Prop :=
  forall u s m c w, ds = u ++ s :: m ++ c :: w -> ccc s = 0 -> unblocked m c -> comb s c = None.
(** What a table of primary composites satisfies: only characters, composites are starters and are not second members. *)
Definition character_datum (d : datum) : Prop := hd 0 d = 1 /\ Forall (fun b => b < 256) d.
Record composites : Prop := {
  cp_char : forall a b c, comb a b = Some c -> hd 0 a = 1 /\ hd 0 b = 1 /\ character_datum c;
  cp_starter : forall a b c, comb a b = Some c -> ccc c = 0;
  cp_second : forall a b c x y, comb a b = Some c -> comb x y <> Some b
}.
End C.
(** Canonical order: within a run of combining marks the classes do not decrease. *)
Definition in_order (ds : list datum) : Prop := forall u a b w, ds = u ++ a :: b :: w -> ccc b <> 0 -> ccc a <= ccc b.

(** ** Normalisation of texts *)
(** The table of pairs: two characters and the one they make; the first line for a pair counts. *)
Definition pairs_of (P : list (N * N * N)) (a b : datum) : option datum :=
  match find (fun x => if list_eq_dec N.eq_dec (udatum (fst (fst x))) a then if list_eq_dec N.eq_dec (udatum (snd (fst x))) b then true else false else false) P with
  | Some x => Some (udatum (snd x)) | None => None end.
(** Full canonical decomposition (D68): every character replaced by its decomposition according to [T], every Hangul syllable by
    its jamo, and the combining marks put in canonical order.  Two texts are canonically equivalent (D70) if these are the same. *)
Definition canonical_decomposition (T : list (N * list N)) (cps os : list N) : Prop :=
  exists ds, decomposed (flat_map (mapped T) cps) ds /\ reordered (map udatum ds) (map udatum os).
(** No jamo can be composed (a leading consonant with a vowel). *)
Definition hangul_composed (cps : list N) : Prop := forall u a b w, cps = u ++ a :: b :: w -> leading a -> vowel b -> False.
(** What the tables of the Unicode character database satisfy (checked for the shipped ones in T_Nfc). *)
Definition code32 (c : N) : Prop := c < 0x100000000.
Definition hangul (c : N) : Prop := precomposed c \/ leading c \/ vowel c \/ final c.
Record normal_tables (T : list (N * list N)) (P : list (N * N * N)) : Prop := {
  nt_map : char_map_ok T;
  nt_full : forall c x, In x (mapped T c) -> mapped T x = [x];
  nt_mark : forall c, ccc (udatum c) <> 0 -> Forall (fun x => ccc (udatum x) = ccc (udatum c)) (mapped T c);
  nt_hangul : forall c, hangul c -> mapped T c = [c];
  nt_code : forall a b c, In (a, b, c) P -> code32 a /\ code32 b /\ code32 c;
  nt_pair : forall a b c, In (a, b, c) P -> mapped T c = mapped T a ++ mapped T b;
  nt_starter : forall a b c, In (a, b, c) P -> ccc (udatum c) = 0;
  nt_second : forall a b c x y z, In (a, b, c) P -> In (x, y, z) P -> z <> b;
  nt_jamo : forall a b c, In (a, b, c) P -> ~ hangul a /\ ~ hangul b
}.
