(** Independent specification: bytes and control sequences, and moving the control sequences out of double byte characters. *)
From Verif Require Import Base.
Local Open Scope N_scope.

(** A byte that ends a control sequence: a letter other than O. *)
Definition final (b : N) : Prop := (0x61 <= b <= 0x7A) \/ (0x41 <= b <= 0x5A /\ b <> 0x4F).
(** A control sequence: ESC and one byte, or ESC [, parameters and a final byte; one with more than 27 parameter bytes is cut after 28. *)
Inductive control : list N -> Prop :=
| ct_two b : b < 256 -> b <> 0x5B -> control [0x1B; b]
| ct_csi ps b : Forall (fun x => x < 256 /\ ~ final x) ps -> (length ps <= 27)%nat -> final b -> control (0x1B :: 0x5B :: ps ++ [b])
| ct_long ps : Forall (fun x => x < 256 /\ ~ final x) ps -> length ps = 28%nat -> control (0x1B :: 0x5B :: ps).
Inductive item := Control (w : list N) | Byte (b : N).
Definition item_ok (u : item) : Prop := match u with Control w => control w | Byte b => b < 256 /\ b <> 0x1B end.
Definition spelling (u : item) : list N := match u with Control w => w | Byte b => [b] end.
Definition lead (u : item) : Prop := match u with Byte b => 0x7F < b | _ => False end.
(** [defragmented us vs]: in [vs] each lead byte is followed by its second byte; the control sequences that stood between them follow. *)
Inductive defragmented : list item -> list item -> Prop :=
| df_end : defragmented [] []
| df_plain u us vs : ~ lead u -> defragmented us vs -> defragmented (u :: us) (u :: vs)
| df_pair b cs t us vs : 0x7F < b -> defragmented us vs -> defragmented (Byte b :: map Control cs ++ Byte t :: us) (Byte b :: Byte t :: map Control cs ++ vs).
