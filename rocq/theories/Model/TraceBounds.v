(** The dictionary of trace boundaries of a summary: /repo/src/opyenxes/info/XLogInfo.py:60,
    80-91 and 194-201, with the keys of model/XTrace.py:68-69.

    [XTrace.__hash__] is [hash(super(XTrace, self))]: the hash value of an object that is made
    for the call and thrown away.  It depends on where that object lies in memory and not on
    the trace, so every call of [hash] gets its own value here: [h n] is the value for the
    [n]-th entry made and [hq] the one for the question. *)
From Coq Require Import ZArith NArith List Bool.
From Verif Require Import Base.PyBase Base.PyDate Base.PyVal Model.Attr Model.Log Model.TimeBounds Model.LogInfo.
Import ListNotations.

(** Trace objects are numbers; [c] gives their content. *)
Section Traces.
Context (c : nat -> trace).

(** [XEvent.__eq__] compares the ids (XEvent.py:54-57), [list.__eq__] the elements in order. *)
Fixpoint same_list (l m : list event) : bool :=
  match l, m with
  | [], [] => true
  | x :: l, y :: m => N.eqb (ev_id x) (ev_id y) && same_list l m
  | _, _ => false
  end.
(** A key of a dictionary matches when it is the same object or equal. *)
Definition key_match (a b : nat) : bool :=
  Nat.eqb a b || same_list (tr_events (c a)) (tr_events (c b)).

(** Entries: the hash value kept with the key, the key, the value. *)
Definition tdict : Type := list (Z * nat * tbounds).

(** [d[t] = b]: an entry with the hash value and a matching key gets the new value and keeps
    its key; otherwise there is a new entry. *)
Fixpoint tput (hash : Z) (t : nat) (b : tbounds) (d : tdict) : tdict :=
  match d with
  | [] => [(hash, t, b)]
  | (g, k, v) :: r => if Z.eqb g hash && key_match k t then (g, k, b) :: r else (g, k, v) :: tput hash t b r
  end.
(** [d.get(t)]. *)
Definition tget (hash : Z) (t : nat) (d : tdict) : option tbounds :=
  match find (fun x => Z.eqb (fst (fst x)) hash && key_match (snd (fst x)) t) d with
  | Some x => Some (snd x)
  | None => None
  end.

(** The boundaries of one trace: XLogInfo.py:80, 82 and 89. *)
Definition trace_bounds (t : trace) : res tbounds :=
  fold_res (fun b e => tb_reg b (REvent e)) (tr_events t) tb_empty.

(** The dictionary after the loop of XLogInfo.py:77-92, which makes one entry for each trace
    of the log; the other effects of the loop are in Model/LogInfo.v. *)
Fixpoint trace_boundaries (h : nat -> Z) (n : nat) (ts : list nat) (d : tdict) : res tdict :=
  match ts with
  | [] => Ok d
  | t :: r => let! b := trace_bounds (c t) in trace_boundaries h (S n) r (tput (h n) t b d)
  end.

(** get_trace_time_boundaries: XLogInfo.py:194-201. *)
Definition get_trace_time_boundaries (hq : Z) (q : nat) (d : tdict) : option tbounds := tget hq q d.
End Traces.
