(** Shared vocabulary: C strings, generic list helpers. No bsdconv code here. *)
From Coq Require Export Ascii String.
From Coq Require Export List Arith NArith ZArith Lia Bool.
Export ListNotations.
Open Scope list_scope.
Open Scope nat_scope.

(** A C string without its terminating NUL. *)
Definition str := list ascii.

(** Literal helper: turns a Coq string literal into [str]. *)
Fixpoint of_string (s : string) : str :=
  match s with
  | EmptyString => []
  | String c s' => c :: of_string s'
  end.
Notation "'s_' x" := (of_string x%string) (at level 1, x at level 0, only parsing).

Fixpoint str_eqb (a b : str) : bool :=
  match a, b with
  | [], [] => true
  | x :: a', y :: b' => Ascii.eqb x y && str_eqb a' b'
  | _, _ => false
  end.

Lemma str_eqb_eq a b : str_eqb a b = true <-> a = b.
Proof.
  revert b; induction a as [|x a IH]; intros [|y b]; cbn; split; intros H;
    try discriminate; try reflexivity.
  - apply andb_prop in H as [H1 H2]. apply Ascii.eqb_eq in H1. apply IH in H2. congruence.
  - injection H as -> ->. rewrite Ascii.eqb_refl. cbn. apply IH. reflexivity.
Qed.

Lemma str_eqb_refl a : str_eqb a a = true.
Proof. apply str_eqb_eq. reflexivity. Qed.

Lemma str_eqb_neq a b : str_eqb a b = false <-> a <> b.
Proof.
  split; intros H.
  - intros ->. rewrite str_eqb_refl in H. discriminate.
  - destruct (str_eqb a b) eqn:E; [|reflexivity]. apply str_eqb_eq in E. contradiction.
Qed.

(** strtoupper on one char: 'a'..'z' -> 'A'..'Z'  (src/bsdconv.h:352-359) *)
Definition up_char (c : ascii) : ascii :=
  let n := nat_of_ascii c in
  if (97 <=? n) && (n <=? 122) then ascii_of_nat (n - 32) else c.

(** strtoupper (src/bsdconv.h:352-359) *)
Definition strtoupper (s : str) : str := map up_char s.

Lemma up_char_idem c : up_char (up_char c) = up_char c.
Proof. destruct c as [[] [] [] [] [] [] [] []]; vm_compute; reflexivity. Qed.

Lemma strtoupper_idem s : strtoupper (strtoupper s) = strtoupper s.
Proof. unfold strtoupper. rewrite map_map. apply map_ext. apply up_char_idem. Qed.
