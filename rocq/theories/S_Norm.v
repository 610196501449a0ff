(** Specification: Hangul composition and decomposition (The Unicode Standard, section 3.12) and canonical ordering. *)
From Verif Require Import Base Types S_Ranges S_Unicode D_Ranges.
From Coq Require Import Permutation Sorted.
Local Open Scope N_scope.

(** The syllable made of the [l]-th leading consonant, the [v]-th vowel and, if [t] is not 0, the [t]-th final consonant. *)
Definition syllable (l v t : N) : N := 0xAC00 + (l * 21 + v) * 28 + t.
Definition leading (c : N) : Prop := exists l, l < 19 /\ c = 0x1100 + l.
Definition vowel (c : N) : Prop := exists v, v < 21 /\ c = 0x1161 + v.
Definition final (c : N) : Prop := exists t, 0 < t < 28 /\ c = 0x11A7 + t.
Definition precomposed (c : N) : Prop := exists l v t, l < 19 /\ v < 21 /\ t < 28 /\ c = syllable l v t.
(** The jamo a syllable consists of. *)
Definition jamo (l v t : N) : list N := [0x1100 + l; 0x1161 + v] ++ if t =? 0 then [] else [0x11A7 + t].

(** [decomposed cs ds]: [ds] is [cs] with every syllable replaced by its jamo. *)
Inductive decomposed : list N -> list N -> Prop :=
| de_nil : decomposed [] []
| de_syl l v t cs ds : l < 19 -> v < 21 -> t < 28 -> decomposed cs ds -> decomposed (syllable l v t :: cs) (jamo l v t ++ ds)
| de_other c cs ds : ~ precomposed c -> decomposed cs ds -> decomposed (c :: cs) (c :: ds).
(** [composed cs ds]: [ds] is [cs] with every leading consonant that a vowel follows, together with the vowel and the
    final consonant that may follow it, replaced by the syllable. *)
Inductive composed : list N -> list N -> Prop :=
| cm_nil : composed [] []
| cm_lvt l v t cs ds : l < 19 -> v < 21 -> 0 < t < 28 -> composed cs ds ->
    composed (0x1100 + l :: 0x1161 + v :: 0x11A7 + t :: cs) (syllable l v t :: ds)
| cm_lv l v cs ds : l < 19 -> v < 21 -> (forall t r, 0 < t < 28 -> cs <> 0x11A7 + t :: r) -> composed cs ds ->
    composed (0x1100 + l :: 0x1161 + v :: cs) (syllable l v 0 :: ds)
| cm_other c cs ds : (forall v r, leading c -> v < 21 -> cs <> 0x1161 + v :: r) -> composed cs ds -> composed (c :: cs) (c :: ds).

(** Canonical ordering.  The combining class of a datum according to the shipped table: 0 for everything it does not list. *)
Definition ccc (d : datum) : N :=
  match d with
  | 1 :: l => match find (fun r => (fst (fst r) <=? be_value l mod 0x100000000) && (be_value l mod 0x100000000 <=? snd (fst r))) ccc_table with
              | Some r => snd r | None => 0 end
  | _ => 0
  end.
(** Stable sorting by combining class. *)
Definition stably_sorted (ms ns : list datum) : Prop :=
  Permutation ms ns /\ StronglySorted (fun a b => ccc a <= ccc b) ns /\
  forall k, filter (fun d => ccc d =? k) ns = filter (fun d => ccc d =? k) ms.
(** [reordered ds os]: every maximal run of combining marks of [ds] is stably sorted in [os]; starters stay in place. *)
Inductive reordered : list datum -> list datum -> Prop :=
| ro_end ms ns : Forall (fun d => ccc d <> 0) ms -> stably_sorted ms ns -> reordered ms ns
| ro_starter ms ns d ds os : Forall (fun d => ccc d <> 0) ms -> stably_sorted ms ns -> ccc d = 0 -> reordered ds os ->
    reordered (ms ++ d :: ds) (ns ++ d :: os).
