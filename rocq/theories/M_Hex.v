(** Model of the hexadecimal parsers (src/libbsdconv_util.c:24-111). *)
From Verif Require Import Base Types D_Maps.

(** hex[(unsigned char)c]; the index is always below 256. *)
Definition map_digit (tbl : list Z) (b : N) : Z := nth (N.to_nat b) tbl (-1)%Z.
Definition hex (b : N) : Z := map_digit hex_table b.
Definition dec (b : N) : Z := map_digit dec_table b.
Definition oct (b : N) : Z := map_digit oct_table b.
Definition byte_of (c : ascii) : N := N_of_ascii c.

(** Return value of the parsers: bytes written and length, EINVAL, or a write outside the block. *)
Inductive hexres := HOk (d : list N) | HEinval | HUB.

(** The loop body shared by str2datum (src/libbsdconv_util.c:32-52) and str2data (83-104):
    [buf] is the malloc'ed block (None: uninitialised byte), [len] is d->len, [f] the half-byte flag. *)
Fixpoint hex_loop (s : str) (buf : list (option N)) (len : nat) (f : bool) : hexres :=
  match s with
  | [] =>
      (* the caller reads d->len bytes *)
      match fold_right (fun o acc => match o, acc with Some b, Some l => Some (b :: l) | _, _ => None end)
              (Some []) (firstn len buf) with
      | Some l => HOk l
      | None => HUB
      end
  | c :: s' =>
      let h := hex (byte_of c) in
      if (h <? 0)%Z then HEinval
      else if negb (len <? length buf) then HUB
      else if f then
        match nth len buf None with
        | None => HUB
        | Some v =>
            let v1 := ((v * 16) mod 256)%N in
            let v2 := ((v1 + Z.to_N h) mod 256)%N in
            hex_loop s' (firstn len buf ++ Some v2 :: skipn (S len) buf) (S len) false
        end
      else hex_loop s' (firstn len buf ++ Some (Z.to_N h) :: skipn (S len) buf) len true
  end.

(** str2datum (src/libbsdconv_util.c:24-54); [None] is the NULL argument. *)
Definition str2datum (s : option str) : hexres :=
  match s with
  | None => HEinval
  | Some s => hex_loop s (repeat None (length s / 2)) 0 false
  end.

(** strsep(&cur, ".") repeated until NULL *)
Fixpoint strsep_dot (s : str) : list str :=
  match s with
  | [] => [[]]
  | c :: s' => if Ascii.eqb c "."%char then [] :: strsep_dot s'
               else match strsep_dot s' with
                    | [] => [[c]]
                    | k :: ks => (c :: k) :: ks
                    end
  end.

(** str2data (src/libbsdconv_util.c:56-111). *)
Inductive datares := DOk (l : list (list N)) | DEinval | DUB.
Fixpoint str2data_loop (ks : list str) : datares :=
  match ks with
  | [] => DOk []
  | k :: ks' =>
      match hex_loop k (repeat None (length k / 2)) 0 false with
      | HEinval => DEinval
      | HUB => DUB
      | HOk d => match str2data_loop ks' with DOk l => DOk (d :: l) | r => r end
      end
  end.
Definition str2data (s : option str) : datares :=
  match s with
  | None => DEinval
  | Some [] => DOk []
  | Some s => str2data_loop (strsep_dot s)
  end.
