(** Chronological insertion into a trace: /repo/src/opyenxes/model/XTrace.py:28-57. *)
From Coq Require Import String NArith ZArith List Bool.
From Verif Require Import Base.PyBase Base.PyDate Base.PyVal Model.Attr.
Import ListNotations.

(** The loop of lines 45-57 ([for i in range(len(self) - 1, -1, -1)]), about to look at
    index [k - 1].  The result is the list of events afterwards and the returned index
    or the exception. *)
Fixpoint insert_scan (t : list event) (e : event) (ins : pyval) (k : nat)
  : list event * res nat :=
  match k with
  | O => (e :: t, Ok 0)                                        (* lines 56-57 *)
  | S i =>
      match nth_error t i with
      | None => (t, Raise IndexError)
      | Some ev =>
          match sget (py "time:timestamp") (ev_attrs ev) with
          | None => (t ++ [e], Ok (List.length t))             (* lines 47-49 *)
          | Some a =>
              match get_value a with
              | Raise x => (t, Raise x)
              | Ok ref =>
                  match py_ge ins ref with
                  | Raise x => (t, Raise x)
                  | Ok true => (firstn (S i) t ++ e :: skipn (S i) t, Ok (S i))  (* 52-54 *)
                  | Ok false => insert_scan t e ins i
                  end
              end
          end
      end
  end.

(** XTrace.insert_ordered: XTrace.py:28-57.  [append] (lines 59-66) is list append. *)
Definition insert_ordered (t : list event) (e : event) : list event * res nat :=
  match t with
  | [] => ([e], Ok 0)                                          (* lines 37-39 *)
  | _ =>
      match sget (py "time:timestamp") (ev_attrs e) with
      | None => (t ++ [e], Ok (List.length t))                 (* lines 40-42 *)
      | Some a =>
          match get_value a with                               (* line 44 *)
          | Raise x => (t, Raise x)
          | Ok ins => insert_scan t e ins (List.length t)
          end
      end
  end.

(** Filling a trace by repeated calls; stops at the first exception. *)
Fixpoint insert_all (t : list event) (es : list event) : list event * res unit :=
  match es with
  | [] => (t, Ok tt)
  | e :: es => match insert_ordered t e with
               | (t', Ok _) => insert_all t' es
               | (t', Raise x) => (t', Raise x)
               end
  end.
