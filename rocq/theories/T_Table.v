(** Theorems about compiled tables (C29). *)
From Verif Require Import Base Types M_Engine M_Mktable S_Dict S_Table S_Source P_Source.

(** C29: for every source file of ordinary lines (bytes, ',' separators, '*' wildcards; any number of output
    data) the compiler succeeds, and for every symbol string w the compiled table finds exactly the data of
    the first line that matches w, reports SUBMATCH/CONTINUE (longer entries exist) exactly when some line
    matches an extension of w, and finds nothing otherwise. *)
Theorem C29_compiled_tables_implement_source : forall es, Forall entry_ok es ->
  exists tab, mktable (text_file es) = Some tab /\ forall w, w <> [] ->
  (forall e, first_match es w e -> exists off s, walk tab w = WAt off /\ read_state tab off = Some s /\ t_data s = en_out e /\
      ((extended es w /\ t_status s = SUBMATCH) \/ (~ extended es w /\ t_status s = MATCH))) /\
  (Forall (fun e => ~ matches e w) es -> extended es w -> exists off s, walk tab w = WAt off /\ read_state tab off = Some s /\ t_status s = CONTINUE) /\
  (Forall (fun e => ~ matches e w) es -> ~ extended es w -> walk tab w = WDead).
Proof. exact compiled_lookup. Qed.
Print Assumptions C29_compiled_tables_implement_source.

(** Text of a literal. *)
Definition txt (s : string) : list N := map N_of_ascii (of_string s).
Definition tab_ch : string := String (ascii_of_nat 9) "".
Definition nl_ch : string := String (ascii_of_nat 10) "".
Definition ln (p o : string) : list N := txt (p ++ tab_ch ++ o ++ nl_ch)%string.

(** A source of four lines: "4142 -> 01,0203", "41 -> 04", "*42 -> 05", "43,44 -> 06". *)
Definition ex_src : list sentry := [
  mkEntry [PByte 65; PByte 66] [[1]; [2; 3]];
  mkEntry [PByte 65] [[4]];
  mkEntry [PAny; PByte 66] [[5]];
  mkEntry [PByte 67; PSep; PByte 68] [[6]]]%N.
Example ex_src_ok : Forall entry_ok ex_src.
Proof. repeat constructor; cbn; try discriminate; try lia. Qed.
Example ex_src_text : text_file ex_src = (ln "4142" "01,0203" ++ ln "41" "04" ++ ln "*42" "05" ++ ln "43,44" "06").
Proof. reflexivity. Qed.
Definition found (tab : table) (w : list N) : option (status * list datum) :=
  match walk tab w with WAt o => option_map (fun s => (t_status s, t_data s)) (read_state tab o) | _ => None end.
Example C29_ex : option_map (fun tab => (found tab [65], found tab [65; 66], found tab [90; 66], found tab [67], found tab [67; 256; 68], found tab [65; 67]))%N (mktable (text_file ex_src)) =
  Some (Some (SUBMATCH, [[4]]), Some (MATCH, [[1]; [2; 3]]), Some (MATCH, [[5]]), Some (CONTINUE, []), Some (MATCH, [[6]]), None)%N.
Proof. vm_compute. reflexivity. Qed.
Example C29_ex_first : first_match ex_src [65; 66]%N (mkEntry [PByte 65; PByte 66] [[1]; [2; 3]])%N.
Proof. exists [], (tl ex_src). split; [reflexivity|]. split; [repeat constructor|constructor]. Qed.

(** Case-insensitive lines ('!') break the property: an exact line that follows a '!' line resets the state
    to "no longer entries", so the entry "4142" of this file cannot be found by the engine any more. *)
Theorem C29_case_insensitive_refuted :
  exists tab s s', mktable (ln "!61" "03" ++ ln "4142" "01" ++ ln "41" "02") = Some tab /\
    walk tab [65]%N = WAt 1 /\ read_state tab 1 = Some s /\ t_status s = MATCH /\
    walk tab [65; 66]%N = WAt 3 /\ read_state tab 3 = Some s' /\ t_status s' = MATCH.
Proof. vm_compute. eexists _, _, _. repeat (split; [reflexivity|]). reflexivity. Qed.
Print Assumptions C29_case_insensitive_refuted.

(** And a '!' line in upper case does not match the lower-case letter. *)
Theorem C29_case_upper_refuted : exists tab, mktable (ln "!42" "01") = Some tab /\ walk tab [98]%N = WDead.
Proof. vm_compute. eexists. split; reflexivity. Qed.
Print Assumptions C29_case_upper_refuted.
