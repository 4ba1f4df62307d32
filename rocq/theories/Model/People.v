(** /repo/example/Number_of_activity_done_by_people.py: how many events each resource has. *)
From Coq Require Import String NArith List Bool.
From Verif Require Import Base.PyBase Base.PyDate Base.PyVal Model.Attr Model.Log Model.Classify.
Import ListNotations.

Section WithFloatIO.
Context `{FIO : FloatIO}.

(** The classifier: Number_of_activity_done_by_people.py:11. *)
Definition resource_classifier : classifier := mk_cl (py "Resource") [py "Resource"].

(** [people_dict[people] += 1] on a [defaultdict] of zeros:
    Number_of_activity_done_by_people.py:12, 17. *)
Definition count_one (d : sdict nat) (p : pystr) : sdict nat :=
  sset p (match sget p d with Some n => S n | None => 1 end) d.

(** The innermost loop: Number_of_activity_done_by_people.py:15-17. *)
Definition count_event (c : classifier) (d : sdict nat) (e : event) : res (sdict nat) :=
  let! p := class_identity c e in Ok (count_one d p).

(** The loops over logs, traces and events: Number_of_activity_done_by_people.py:13-17. *)
Definition count_people (c : classifier) (logs : list xlog) : res (sdict nat) :=
  fold_res (fun d l => fold_res (fun d t => fold_res (count_event c) (tr_events t) d) (lg_traces l) d) logs [].

(** The labels and the lengths of the bars: Number_of_activity_done_by_people.py:19-21.
    ([people_dict[people]] for the keys of the dictionary; a missing key would be made with
    the value 0.) *)
Definition bars (d : sdict nat) : list pystr * list nat :=
  (map fst d, map (fun p => match sget p d with Some n => n | None => 0 end) (map fst d)).

(** Number_of_activity_done_by_people.py:11-21.  Not modelled: the plot (lines 20, 22-26). *)
Definition people_chart (logs : list xlog) : res (list pystr * list nat) :=
  let! d := count_people resource_classifier logs in Ok (bars d).
End WithFloatIO.
