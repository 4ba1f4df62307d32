(** What was done to one timer. *)
From Coq Require Import Arith ZArith List Bool SpecFloat.
From Verif Require Import Model.Timer Spec.Duration.
Import ListNotations.

(** Number of timers made. *)
Definition made (ops : list top) : nat := List.length (filter (fun o => match o with TNew => true | _ => false end) ops).
Definition concerns (i : nat) (o : top) : bool :=
  match o with TNew => false | TStart j _ | TStop j _ => Nat.eqb i j end.
Inductive began : Type := Imported | Started (at_ : spec_float).
Definition began_at (import : spec_float) (b : began) : spec_float := match b with Imported => import | Started t => t end.

(** Timers are numbered in the order they were made.  [history ops i b e]: what [ops] did to timer
    [i]; it was last started at [b] (or never, and counts from the import), and since then it was
    stopped last at [e], if at all. *)
Inductive history : list top -> nat -> began -> option spec_float -> Prop :=
| h_new ops : history (ops ++ [TNew]) (made ops) Imported None
| h_start ops i b e now : history ops i b e -> history (ops ++ [TStart i now]) i (Started now) None
| h_stop ops i b e now : history ops i b e -> history (ops ++ [TStop i now]) i b (Some now)
| h_other ops i b e o : history ops i b e -> concerns i o = false -> history (ops ++ [o]) i b e.

(** The reading is [u] units, and in the time from one second to about 270 years after 1970. *)
Definition reads (now : spec_float) (u : Z) : Prop := worth now u /\ (smallest <= u < 2 ^ 33 * smallest)%Z.
