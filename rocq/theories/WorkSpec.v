(** Specification for the work done while a generic value is encoded. *)

From Verif Require Import Encode Wire.
Open Scope list_scope.
Open Scope Z_scope.

(** For each value in [v], [v] itself included, the number of lists and maps around it; [d] of them are outside [v].  All together. *)
Fixpoint around (d : Z) (v : variant) : Z :=
  match v with
  | VList l => d + fold_right Z.add 0 (map (around (d + 1)) l)
  | VMap m => d + fold_right Z.add 0 (map (fun kv : variant * variant => let (k, w) := kv in around (d + 1) k + around (d + 1) w) m)
  | VDescribed _ w => d + around d w
  | _ => d
  end.

(** Lists in lists, and their encoding with headers of nine bytes. *)
Fixpoint lists (n : nat) : variant := match n with O => VNull | S k => VList [lists k] end.
Fixpoint lists_bytes (n : nat) : bytes :=
  match n with O => [0x40] | S k => let bs := lists_bytes k in 0xd0 :: be4 (zlen bs + 4) ++ be4 1 ++ bs end.
