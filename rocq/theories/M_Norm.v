(** Model of the normalisation steps modules/inter/_NF-HANGUL-DECOMPOSITION.c, _NF-HANGUL-COMPOSITION.c and _NF-ORDER.c
    (one-line sources "*<TAB>?"). *)
From Verif Require Import Base Types M_Engine M_Bsearch M_Star D_Ranges.
Local Open Scope N_scope.

(** "int x = ucs - BASE;" with uint32_t ucs: the difference modulo 2^32, read as a signed number. *)
Definition idiff (u base : N) : Z :=
  let m := (u + (0x100000000 - base)) mod 0x100000000 in
  if m <? 0x80000000 then Z.of_N m else (Z.of_N m - 0x100000000)%Z.
(** "while(ucs && stack_len<sizeof(stack)){ stack[stack_len]=ucs&0xff; ucs>>=8; stack_len+=1; }" followed by type byte 01 and
    the stack from the top (_NF-HANGUL-COMPOSITION.c:143-166, _NF-HANGUL-DECOMPOSITION.c:54-76). *)
Fixpoint stack_bytes (fuel : nat) (u : N) : list N :=
  match fuel with
  | O => []
  | S f => if u =? 0 then [] else N.land u 0xFF :: stack_bytes f (N.shiftr u 8)
  end.
Definition emit_ucs (u : N) : datum := 1 :: rev (stack_bytes 8 u).

(** The #defines (lines 3-11 of the one, 5-13 of the other). *)
Definition SBase := 0xAC00. Definition LBase := 0x1100. Definition VBase := 0x1161. Definition TBase := 0x11A7.
Definition LCount := 19%Z. Definition VCount := 21%Z. Definition TCount := 28%Z.
Definition NCount := (VCount * TCount)%Z.
Definition SCount := (LCount * NCount)%Z.
Definition in_range (i count : Z) : bool := ((0 <=? i) && (i <? count))%Z.

(** decomposeHangul (_NF-HANGUL-DECOMPOSITION.c:41-78); the recursion is at most one level deep: L, V and T are below SBase
    (fuel 2; the fuel never runs out, see P_Norm). *)
Fixpoint decompose_hangul (fuel : nat) (u : N) : list datum :=
  match fuel with
  | O => []
  | S f =>
      let SIndex := idiff u SBase in
      if in_range SIndex SCount then
        let L := (Z.of_N LBase + SIndex / NCount)%Z in
        let V := (Z.of_N VBase + (SIndex mod NCount) / TCount)%Z in
        let T := (Z.of_N TBase + SIndex mod TCount)%Z in
        decompose_hangul f (Z.to_N L) ++ decompose_hangul f (Z.to_N V) ++
        (if (T =? Z.of_N TBase)%Z then [] else decompose_hangul f (Z.to_N T))
      else [emit_ucs u]
  end.
(** cbconv (_NF-HANGUL-DECOMPOSITION.c:15-39): data of other types are not copied. *)
Definition hdecomp_conv (s : unit) (d : datum) : unit * status * list datum :=
  (s, NEXTPHASE,
   match d with
   | 1 :: l => if in_range (idiff (u32_of l) SBase) SCount then decompose_hangul 2 (u32_of l) else [d]
   | _ => []
   end).
Definition HANGUL_DECOMPOSITION : star unit := mkStar hdecomp_conv no_flush.

(** struct my_s (_NF-HANGUL-COMPOSITION.c:13-16). *)
Record hcomp := mkHc { hc_status : N; hc_pending : N }.
(** cbinit (lines 23-26) *)
Definition hcomp_init (r : hcomp) : hcomp := mkHc 0 (hc_pending r).
(** cbflush (lines 134-169), apart from the status it stores. *)
Definition hcomp_flush (r : hcomp) : hcomp * list datum :=
  if hc_status r =? 0 then (r, []) else (mkHc 0 (hc_pending r), [emit_ucs (hc_pending r)]).
(** After a flush in mid-text: a leading consonant becomes pending, anything else is copied
    (lines 63-75, 77-97, 104-117; the second test of lines 86-90 repeats the first). *)
Definition hcomp_restart (r : hcomp) (u : N) (d : datum) : hcomp * status * list datum :=
  let '(r1, o) := hcomp_flush r in
  if in_range (idiff u LBase) LCount then (mkHc 1 u, SUBMATCH, o) else (r1, NEXTPHASE, o ++ [d]).
(** cbconv (lines 28-127); r->pending is a uint32_t. *)
Definition hcomp_conv (r : hcomp) (d : datum) : hcomp * status * list datum :=
  match d with
  | 1 :: l =>
      let u := u32_of l in
      match hc_status r with
      | 0 => if in_range (idiff u LBase) LCount then (mkHc 1 u, SUBMATCH, []) else (r, DEADEND, [])
      | 1 =>
          let LIndex := idiff (hc_pending r) LBase in
          let VIndex := idiff u VBase in
          if in_range VIndex VCount then
            let pending := Z.to_N ((Z.of_N SBase + (LIndex * VCount + VIndex) * TCount) mod 0x100000000)%Z in
            let SIndex := idiff pending SBase in
            if in_range SIndex SCount && (Z.rem SIndex TCount =? 0)%Z then (mkHc 2 pending, SUBMATCH, [])
            else hcomp_restart (mkHc 1 pending) u d
          else hcomp_restart r u d
      | 2 =>
          let TIndex := idiff u TBase in
          if ((0 <? TIndex) && (TIndex <? TCount))%Z then
            let '(r1, o) := hcomp_flush (mkHc 2 (Z.to_N ((Z.of_N (hc_pending r) + TIndex) mod 0x100000000)%Z)) in (r1, NEXTPHASE, o)
          else hcomp_restart r u d
      | _ => (r, NOMATCH, [])      (* no case label: state.status keeps its value; never reached *)
      end
  | _ => let '(r1, o) := hcomp_flush r in (r1, NEXTPHASE, o ++ [d])
  end.
Definition HANGUL_COMPOSITION : star hcomp := mkStar hcomp_conv hcomp_flush.

(** The combining class of a datum (_NF-ORDER.c:60-78). *)
Definition ccc_of (d : datum) : N :=
  match d with
  | 1 :: l => match bs_find f3 l3 ccc_table (u32_of l) with Some (Some r) => v3 r | _ => 0 end
  | _ => 0
  end.
(** The insertion (lines 99-117): the scan goes from the tail while ccc < p->ccc; the new node is linked in after the
    node where it stops.  The doubly linked list with a holder at the tail is the list of its nodes, here from the tail. *)
Fixpoint order_back (c : N) (d : datum) (l : list (N * datum)) : list (N * datum) :=
  match l with
  | [] => [(c, d)]
  | (c', d') :: r => if c <? c' then (c', d') :: order_back c d r else (c, d) :: l
  end.
Definition order_insert (c : N) (d : datum) (l : list (N * datum)) : list (N * datum) := rev (order_back c d (rev l)).
(** cbconv (lines 48-120), cbflush (lines 29-46); there is no cbinit. *)
Definition order_conv (l : list (N * datum)) (d : datum) : list (N * datum) * status * list datum :=
  if ccc_of d =? 0 then ([], NEXTPHASE, map snd l ++ [d])
  else (order_insert (ccc_of d) d l, SUBMATCH, []).
Definition order_flush (l : list (N * datum)) : list (N * datum) * list datum := ([], map snd l).
Definition ORDER : star (list (N * datum)) := mkStar order_conv order_flush.
