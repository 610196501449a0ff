(** The binary search over a table of ranges that several modules contain in the same form:
    modules/filter/unicode_range.c:23-34, modules/scorer/unicode_range.c:23-34, modules/inter/WIDTH.c:46-70,
    modules/inter/AMBIGUOUS-PAD.c:55-68, AMBIGUOUS-UNPAD.c:59-72, modules/inter/_NF-ORDER.c:62-74,
    modules/from/_GB18030.c:118-131, modules/to/_GB18030.c:51-66.

      if (x < ranges[0].first || x > ranges[max].last) { not found }
      else while (max >= min) {
        mid = (min + max) / 2;
        if (x > ranges[mid].last) min = mid + 1;
        else if (x < ranges[mid].first) max = mid - 1;
        else found at mid;
      }

    [hi] is max+1 (so that it is a natural number).  [None]: an index outside the table, or the fuel ran out. *)
From Verif Require Import Base.

Section Search.
Context {R : Type}.
Variables first last : R -> N.
Fixpoint bs_loop (rs : list R) (x : N) (fuel lo hi : nat) : option (option R) :=
  match fuel with
  | O => None
  | S f =>
    if hi <=? lo then Some None
    else let mid := (lo + (hi - 1)) / 2 in
         match nth_error rs mid with
         | None => None
         | Some r => if (last r <? x)%N then bs_loop rs x f (mid + 1) hi
                     else if (x <? first r)%N then bs_loop rs x f lo mid
                     else Some (Some r)
         end
  end.
Definition bs_find (rs : list R) (x : N) : option (option R) :=
  match nth_error rs 0, nth_error rs (length rs - 1) with
  | Some a, Some b => if (x <? first a)%N || (last b <? x)%N then Some None else bs_loop rs x (S (length rs)) 0 (length rs)
  | _, _ => None
  end.
End Search.

(** The two row layouts. *)
Definition f2 (r : N * N) : N := fst r.
Definition l2 (r : N * N) : N := snd r.
Definition f3 (r : N * N * N) : N := fst (fst r).
Definition l3 (r : N * N * N) : N := snd (fst r).
Definition v3 (r : N * N * N) : N := snd r.

(** "for(i=1;i<len;++i){ ucs<<=8; ucs|=data[i]; }" with uint32_t ucs=0: the last four bytes count. *)
Definition u32_of (l : list N) : N := fold_left (fun u b => (N.lor (N.shiftl u 8) b) mod 0x100000000)%N l 0%N.
