(** C63: the list of modules and the check for a module. *)
From Verif Require Import Base Types M_ConvString M_List S_List P_List.
From Coq Require Import ZifyBool ZifyN ZifyNat.

(** The list: the names of the module files and of the alias file's lines, each as often as it is there, sorted, ended by NULL. *)
Theorem C63_list : forall t dir als, Forall file_name (match dir with Some d => d | None => [] end) ->
  Forall short_line (match als with Some ls => ls | None => [] end) ->
  Forall (fun l => (exists r, l = hash :: r) \/ In tab l) (match als with Some ls => ls | None => [] end) ->
  exists names dn an rest, modules_list (Some t) dir (option_map file_of als) = Some (map CStr names ++ CNull :: rest) /\
    selected (module_file t) (match dir with Some d => d | None => [] end) dn /\ selected alias_line (match als with Some ls => ls | None => [] end) an /\
    Permutation names (dn ++ an) /\ StronglySorted str_le names.
Proof.
  intros t dir als HD HL HT. destruct (list_any t dir (option_map file_of als)) as (names & rest & E & HP & HS).
  exists names, (somes (map (dir_name t) (dirs dir))), (somes (map line_name (bufs (option_map file_of als)))), rest. split; [exact E|]. split; [apply dir_selected; exact HD|]. split; [|split; assumption].
  destruct als as [ls|]; [|constructor]. cbn [option_map bufs]. rewrite fgets_file by (assumption || apply le_n). apply lines_selected; assumption.
Qed.
(** Whatever is in the directory and in the file, the array is never written outside of its bounds, and the result is a sorted list ended
    by NULL. *)
Theorem C63_in_bounds : forall t dir alias, exists names rest, modules_list t dir alias = Some (map CStr names ++ CNull :: rest) /\ StronglySorted str_le names.
Proof.
  intros [t|] dir alias.
  - destruct (list_any t dir alias) as (names & rest & E & _ & HS). exists names, rest. auto.
  - exists [], (repeat Uninit 7). split; [reflexivity|constructor].
Qed.
(** The names are determined by the directory and the file. *)
Theorem C63_determined : forall t d out out', selected (module_file t) d out -> selected (module_file t) d out' -> out = out'.
Proof.
  intros t d out out' H. revert out'. induction H as [|d n l out Hn H IH|d l out Hn H IH]; intros out' H'; inversion H'; subst; try (exfalso; unfold not in *; eauto; fail); auto.
  - f_equal; [|auto]. assert (HU : forall n m, module_file t d n -> module_file t d m -> n = m).
    { intros a b Ha Hb. destruct t; cbn in Ha, Hb; [destruct Ha as (_ & _ & ->), Hb as (_ & _ & ->); reflexivity|destruct Ha as (_ & _ & ->), Hb as (_ & _ & ->); reflexivity|destruct Ha as (_ & _ & ->), Hb as (_ & _ & ->); reflexivity| |];
      destruct Ha as (_ & A & r & E1), Hb as (_ & B & q & E2); rewrite E1 in E2; exact (split_unique dot a r b q A B E2). }
    eapply HU; eassumption.
Qed.

(** bsdconv_module_check: the upper-cased name, with ".so" for filters and scorers, is a file of the directory. *)
Definition shared (t : ptype) : bool := match t with FILTER | SCORER => true | _ => false end.
Lemma existsb_in n d : existsb (str_eqb n) d = true <-> In n d.
Proof.
  rewrite existsb_exists. split; [intros (x & Hx & E); apply str_eqb_eq in E; subst; exact Hx|]. intros H. exists n. split; [exact H|]. apply str_eqb_eq. reflexivity.
Qed.
Theorem C63_check : forall t d n, module_check t d n = true <-> In (strtoupper n ++ if shared t then s_ ".so" else []) d.
Proof. intros t d n. unfold module_check. destruct t; cbn [shared]; rewrite ?app_nil_r; apply existsb_in. Qed.
(** What is listed from the directory is found, if its file name is upper-case and (filters, scorers) has no other extension. *)
Theorem C63_listed_is_found : forall t d f n, In f d -> module_file t f n -> strtoupper n = n -> (shared t = true -> f = n ++ s_ ".so") -> module_check t d n = true.
Proof.
  intros t d f n Hf Hm Hu Hs. apply C63_check. rewrite Hu. destruct t; cbn [shared module_file] in *; try (destruct Hm as (_ & _ & ->); rewrite app_nil_r; exact Hf); rewrite <- Hs by reflexivity; exact Hf.
Qed.
(** What is found is listed, unless its name has a dot in it. *)
Theorem C63_found_is_listed : forall t d n out, module_check t d n = true -> ~ In dot (strtoupper n) -> selected (module_file t) d out -> In (strtoupper n) out.
Proof.
  intros t d n out Hc Hd Hs. apply C63_check in Hc. set (u := strtoupper n) in *.
  assert (HM : module_file t (u ++ if shared t then s_ ".so" else []) u).
  { assert (Ha : u <> s_ "alias").
    { assert (HU : forall s, strtoupper s <> s_ "alias") by (intros [|c s]; [discriminate|]; intros H; injection H as H _; destruct c as [[] [] [] [] [] [] [] []]; vm_compute in H; discriminate). apply HU. }
    destruct t; cbn [shared module_file]; rewrite ?app_nil_r; auto; (split; [exists u, []; reflexivity|]; split; [exact Hd|]; eexists; reflexivity). }
  clearbody u. induction Hs as [|f m l out Hm Hs IH|f l out Hm Hs IH]; [destruct Hc| |].
  - destruct Hc as [->|Hc]; [|right; auto]. left.
    assert (HU : forall a b, module_file t (u ++ (if shared t then s_ ".so" else [])) a -> module_file t (u ++ (if shared t then s_ ".so" else [])) b -> a = b).
    { intros a b Ha Hb. destruct t; cbn in Ha, Hb; [destruct Ha as (_ & _ & ->), Hb as (_ & _ & ->); reflexivity|destruct Ha as (_ & _ & ->), Hb as (_ & _ & ->); reflexivity|destruct Ha as (_ & _ & ->), Hb as (_ & _ & ->); reflexivity| |];
      destruct Ha as (_ & A & r & E1), Hb as (_ & B & q & E2); rewrite E1 in E2; exact (split_unique dot a r b q A B E2). }
    eapply HU; eassumption.
  - destruct Hc as [->|Hc]; [exfalso; exact (Hm _ HM)|auto].
Qed.

(** Listed but not found: a module file in lower case; a filter with a second extension.  And a line of the alias file without a tab
    is listed with its newline. *)
Theorem C63_listed_not_found_refuted :
  (exists f n, module_file FROM f n /\ module_check FROM [f] n = false) /\ (exists f n, module_file FILTER f n /\ strtoupper n = n /\ module_check FILTER [f] n = false).
Proof.
  split.
  - exists (s_ "utf"), (s_ "utf"). split; [|reflexivity]. split; [|split; [discriminate|reflexivity]]. cbn. intros H. repeat (destruct H as [H|H]; [discriminate|]). exact H.
  - exists (s_ "CJK.so.old"), (s_ "CJK"). split; [|split; reflexivity]. split; [exists (s_ "CJK"), (s_ ".old"); reflexivity|]. split; [|exists (s_ "so.old"); reflexivity]. cbn. intros H. repeat (destruct H as [H|H]; [discriminate|]). exact H.
Qed.
Theorem C63_no_tab_refuted : modules_list (Some FROM) None (Some (s_ "UTF-7" ++ [nl])) = Some (CStr (s_ "UTF-7" ++ [nl]) :: CNull :: repeat Uninit 6).
Proof. vm_compute. reflexivity. Qed.
(** A case: nine names make the array grow. *)
Example C63_example : exists names rest, modules_list (Some FROM) (Some [s_ "."; s_ "UTF-16LE"; s_ "ASCII"; s_ "alias"; s_ "B"; s_ "C"; s_ "D"; s_ "E"; s_ "F"; s_ "G"; s_ "X.man"]) (Some (file_of [s_ "#x"; s_ "UTF-8" ++ tab :: s_ "ASCII,_UTF-8"])) = Some (map CStr names ++ CNull :: rest) /\
  names = [s_ "ASCII"; s_ "B"; s_ "C"; s_ "D"; s_ "E"; s_ "F"; s_ "G"; s_ "UTF-16LE"; s_ "UTF-8"] /\ length (names ++ [s_ ""]) + length rest = 16.
Proof. exists [s_ "ASCII"; s_ "B"; s_ "C"; s_ "D"; s_ "E"; s_ "F"; s_ "G"; s_ "UTF-16LE"; s_ "UTF-8"], (repeat Uninit 6). split; [vm_compute; reflexivity|]. split; reflexivity. Qed.
Print Assumptions C63_list.
Print Assumptions C63_in_bounds.
Print Assumptions C63_determined.
Print Assumptions C63_check.
Print Assumptions C63_listed_is_found.
Print Assumptions C63_found_is_listed.
Print Assumptions C63_listed_not_found_refuted.
Print Assumptions C63_no_tab_refuted.
