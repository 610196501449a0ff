(** Specification: what the phases of a conversion do one after the other to a whole stream. *)
From Verif Require Import Base Types M_Engine M_UTF8 M_UTF16 M_Modules M_Fallback M_Star M_Stage S_Session S_Unicode S_Source S_Dict S_Convert S_Fallback S_Flow S_Transcode.

Definition some_data (ds : list datum) : list datum := filter (fun d => match d with [] => false | _ => true end) ds.

(** What one phase, number [p] of the instance [s], does to the data [ds]: it puts out [mid], counts [e] output errors and no input
    error, and its module (if it is one) ends in the private state [z].
    - a table phase: S_Fallback (chosen matches; unmatched data passed, dropped or replaced);
    - a decoder: the input is the encoding of the characters it puts out; an encoder: the reverse;
    - a module: it is shown the non-empty data one by one, from the private state it has in [s]. *)
Definition run_link (s : inst priv) (p : nat) (k : link) (ds mid : list datum) (e : nat) (z : option priv) : Prop :=
  match k with
  | LFiles (t, ess, fb) => z = None /\ run_fb [(t, map file_dict ess, fb)] ds mid 0 e
  | LDec cs => z = None /\ e = 0 /\ exists cps, concat ds = flat_map (encoded cs) cps /\ Forall (reads cs) cps /\ mid = map udatum cps
  | LEnc cs => z = None /\ e = 0 /\ exists cps, some_data ds = map udatum cps /\ Forall (writes cs) cps /\ mid = map (encoded cs) cps
  | LMod T inj prj m fl ini s0 => e = 0 /\ exists x x', module_state s p (inj x) /\ star_stream m x (some_data ds) = Some (x', mid) /\ z = Some (inj x')
  end.
(** The phases [c], the first of which is number [p]; [zs]: the private states the modules end in. *)
Inductive run_links (s : inst priv) : nat -> list link -> list datum -> list datum -> nat -> list (nat * priv) -> Prop :=
| rl_end p ds : run_links s p [] ds ds 0 []
| rl_cons p k r ds mid out e z oe zs :
    run_link s p k ds mid e z -> run_links s (S p) r mid out oe zs ->
    run_links s p (k :: r) ds out (e + oe) (match z with Some v => [(p, v)] | None => [] end ++ zs).

(** A module that keeps the property [JS] of its private state and puts out data that begin with a byte. *)
Definition byte_first (d : datum) : Prop := match d with [] => False | b :: _ => (b < 257)%N end.
Record steady_module {S : Type} (inj : S -> priv) (prj : priv -> option S) (m : star S) (fl : bool) (ini : option (S -> S)) (s0 : S) (JS : S -> Prop) : Prop := {
  sm_prj : forall x, prj (inj x) = Some x;
  sm_fl : fl = false -> forall x, st_flush m x = (x, []);
  sm_start : JS s0;
  sm_init : forall g x, ini = Some g -> JS x -> JS (g x);
  sm_conv : forall x d, JS x -> JS (fst (fst (st_conv m x d)));
  sm_out : forall x d, JS x -> byte_first d -> Forall byte_first (snd (st_conv m x d));
  sm_flush : forall x, JS x -> JS (fst (st_flush m x)) /\ Forall byte_first (snd (st_flush m x))
}.
(** One that can stand behind any phase: it only ever answers NEXTPHASE or SUBMATCH. *)
Definition calm_module {S : Type} (inj : S -> priv) (prj : priv -> option S) (m : star S) (fl : bool) (ini : option (S -> S)) (s0 : S) (JS : S -> Prop) : Prop :=
  steady_module inj prj m fl ini s0 JS /\ forall x d, JS x -> byte_first d -> snd (fst (st_conv m x d)) = NEXTPHASE \/ snd (fst (st_conv m x d)) = SUBMATCH.
(** Phases the theorem is about.  For tables the conditions are those of S_Fallback.fb_ok. *)
Definition link_ok (k : link) : Prop :=
  match k with
  | LFiles (t, ess, fb) => (t = FROM \/ t = INTER \/ t = TO) /\ (ess <> [] \/ fb <> None) /\ Forall (Forall entry_ok) ess /\
      (forall es w o, In es ess -> lookup (file_dict es) w = Some o -> has_longer (file_dict es) w = true -> o <> []) /\ (forall d, fb = Some d -> Forall byte_data d)
  | LDec _ | LEnc _ => True
  | LMod T inj prj m fl ini s0 => exists JS, steady_module inj prj m fl ini s0 JS
  end.
(** A module that may answer anything else is not directly behind a table phase ([pg]: the phase before gives no empty data). *)
Definition gives_data (k : link) : bool := match k with LDec _ | LMod _ _ _ _ _ _ _ => true | _ => false end.
Fixpoint placed (pg : bool) (c : list link) : Prop :=
  match c with
  | [] => True
  | k :: r => match k with LMod T inj prj m fl ini s0 => pg = true \/ exists JS, calm_module inj prj m fl ini s0 JS | _ => True end /\ placed (gives_data k) r
  end.
(** The first phase decodes, the others do not. *)
Definition links_ok (c : list link) : Prop :=
  (exists k r, c = k :: r /\ link_type k = FROM /\ Forall (fun k => link_type k <> FROM) r) /\ Forall link_ok c /\ placed false c.
(** A module's private state right after bsdconv_init. *)
Definition initial {S} (ini : option (S -> S)) (JS : S -> Prop) (x : S) : Prop := exists q, JS q /\ x = match ini with Some g => g q | None => q end.

(** ** Intermediate tables that replace single characters (_NFD, LOWER, ZHTW, ...) *)
(** The line for a character and what it becomes. *)
Definition char_entry (x : N * list N) : sentry := mkEntry (map PByte (udatum (fst x))) (map udatum (snd x)).
(** What a character becomes: the first line for it counts; it is kept if there is none. *)
Fixpoint mapped (T : list (N * list N)) (c : N) : list N :=
  match T with [] => [c] | (k, v) :: r => if (c =? k)%N then v else mapped r c end.
Definition char_map_ok (T : list (N * list N)) : Prop :=
  Forall (fun x => (fst x < 0x100000000)%N /\ snd x <> [] /\ length (snd x) <= 80 /\ Forall (fun c => (c < 0x100000000)%N) (snd x)) T.
