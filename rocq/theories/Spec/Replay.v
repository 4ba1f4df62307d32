(** The token game of a net: places hold tokens, a transition takes one from each place that
    feeds it and puts one into each place it feeds.  The places are numbered as in the text of
    the net (Spec/AlphaNet.v): place 0 feeds the starting events, place 1 is fed by the ending
    ones, the others are the pairs of sets. *)
From Coq Require Import String NArith List Bool.
From Verif Require Import Base.PyBase Spec.AlphaNet.
Import ListNotations.

Definition marking := nat -> nat.

(** One token in place [p]. *)
Definition one (p : nat) : marking := fun n => if Nat.eqb n p then 1 else 0.

Section Net.
Variables (starting ending : list pystr) (order : list (list pystr * list pystr)) (events : list pystr).

Definition takes (e : pystr) (n : nat) : bool := is_in e (nth n (consumers starting order) []).
Definition gives (e : pystr) (n : nat) : bool := is_in e (nth n (producers ending order) []).

Definition enabled (e : pystr) (M : marking) : Prop :=
  In e events /\ forall n, takes e n = true -> 1 <= M n.
Definition fire (e : pystr) (M : marking) : marking :=
  fun n => M n - (if takes e n then 1 else 0) + (if gives e n then 1 else 0).

Inductive runs : marking -> list pystr -> marking -> Prop :=
| runs_nil M M' : (forall n, M n = M' n) -> runs M [] M'
| runs_cons M e t M' : enabled e M -> runs (fire e M) t M' -> runs M (e :: t) M'.

(** From the one token of the initial marking to one token in the last place, and nothing left. *)
Definition replays (t : list pystr) : Prop := runs (one 0) t (one 1).
End Net.

(** ** In terms of the log *)

Section Log.
Variable log : list (list pystr).

(** How many events of a trace are in a set. *)
Definition among (A t : list pystr) : nat := List.length (filter (fun x => is_in x A) t).

(** A pair of sets that no other extends. *)
Definition maximal (A B : list pystr) : Prop :=
  pair_of_sets log A B /\
  forall C D, pair_of_sets log C D -> incl A C -> incl B D -> incl C A /\ incl D B.

(** Exactly one event of the trace has the property. *)
Definition once (P : pystr -> Prop) (t : list pystr) : Prop :=
  exists u e v, t = u ++ e :: v /\ P e /\ forall x, In x (u ++ v) -> ~ P x.

(** At no time more events of [B] than of [A], and as many in the end. *)
Definition balanced (A B t : list pystr) : Prop :=
  (forall u v, t = u ++ v -> among B u <= among A u) /\ among B t = among A t.

(** Logs without concurrency and without skipping: nothing precedes a start, nothing comes
    after an end, no two activities follow each other in both orders (so none follows
    itself), activities with one successor in common have the same successors, and the
    successors of an activity do not follow one another, nor do its predecessors. *)
Definition sequential : Prop :=
  (forall a b, follows log a b -> ~ starts log b) /\
  (forall a b, follows log a b -> ~ ends log a) /\
  (forall a b, follows log a b -> ~ follows log b a) /\
  (forall a b c d, follows log a b -> follows log a c -> follows log d b -> follows log d c) /\
  (forall a b c, follows log a b -> follows log a c -> ~ follows log b c) /\
  (forall a b c, follows log a c -> follows log b c -> ~ follows log a b).

(** Walks from a start to an end along direct successions. *)
Definition path (t : list pystr) : Prop :=
  (exists a r, t = a :: r /\ starts log a) /\
  (exists r b, t = r ++ [b] /\ ends log b) /\
  (forall u a b v, t = u ++ a :: b :: v -> follows log a b).
End Log.
