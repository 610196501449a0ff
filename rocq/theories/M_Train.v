(** Model of modules/inter/SCORE-TRAIN.c and of the trained variant of modules/inter/SCORE.c (SCORE#WITH=TRAINED): both keep one byte for
    every character in a file, at the position that is the character's code. *)
From Verif Require Import Base Types M_Engine M_Create M_Callback M_Modules M_Bsearch M_Star M_Stars.
Local Open Scope N_scope.

(** fseek, fread of one byte: [None] behind the end of the file (fread then leaves the variable as it is). *)
Definition file_get (f : list N) (i : N) : option N := nth_error f (N.to_nat i).
(** fseek, fwrite of one byte; behind the end the gap is filled with zeros. *)
Definition file_put (f : list N) (i : N) (v : N) : list N :=
  firstn (N.to_nat i) (f ++ repeat 0 (N.to_nat i - length f)) ++ v :: skipn (S (N.to_nat i)) f.
(** htobe32 (SCORE-TRAIN.c:73), four bytes *)
Definition be32 (u : N) : list N := [u / 0x1000000 mod 0x100; u / 0x10000 mod 0x100; u / 0x100 mod 0x100; u mod 0x100].

(** SCORE-TRAIN.c:7-11: the score file, and what was written to the list file if there is one (attached by cbctl, lines 37-47).  The
    streams are taken to be written at once and to be nobody else's; fopen is assumed to succeed. *)
Record train := mkTrain { tr_file : list N; tr_list : option (list N) }.
(** SCORE-TRAIN.c:49-86.  Line 63 reads the first byte of the datum, which an empty one does not have; such data are taken for "not type 01". *)
Definition train_conv (s : train) (d : datum) : train * status * list datum :=
  match d with
  | 1 :: l =>
      let u := u32_of l in
      let v := match file_get (tr_file s) u with Some v => v | None => 0 end in
      (mkTrain (if v <? 3 then file_put (tr_file s) u (v + 1) else tr_file s)
               (match tr_list s with Some w => if v =? 0 then Some (w ++ be32 u) else Some w | None => None end), NEXTPHASE, [d])
  | _ => (s, NEXTPHASE, [d])
  end.
Definition SCORE_TRAIN : star train := mkStar train_conv no_flush.
(** The state as a private state of the engine. *)
Definition put_train (s : train) : priv := PFrag (tr_list s) [tr_file s].
Definition get_train (p : priv) : option train := match p with PFrag l [f] => Some (mkTrain f l) | _ => None end.
Definition train_mod (s : train) := star_codec put_train get_train SCORE_TRAIN false None s.

(** SCORE.c:82-117 with WITH=TRAINED: the score file [fp] (None: fopen failed, line 49); [stale]: what the variable v of line 90 holds when
    fread does not reach a byte (it is never initialised).  The private state stands for the counter. *)
Definition SCORE_TRAINED (fp : option (list N)) (stale : N -> datum -> N) : star N :=
  mkStar (fun n d => match fp, d with
    | Some f, 1 :: l => (n + match file_get f (u32_of l) with Some v => v | None => stale n d end, NEXTPHASE, [d])
    | _, _ => (n, NEXTPHASE, [d])
    end) no_flush.
Definition trained_mod (fp : option (list N)) (stale : N -> datum -> N) (n : N) := star_codec PNum get_num (SCORE_TRAINED fp stale) false None n.
