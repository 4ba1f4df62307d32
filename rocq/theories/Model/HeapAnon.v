(** The anonymiser on objects: /repo/example/Anonymize_a_log.py:14-35.  Model/Examples.v has it on
    trees, where no attribute object is at two places; here objects may be shared. *)
From Coq Require Import String NArith List Bool.
From Verif Require Import Base.PyBase Base.PyVal Model.Attr Model.Log Model.Heap.
Import ListNotations.

(** [if attribute.get_key() in [...]: attribute.set_value("UNKNOWN")]: lines 16-17, 21-22, 28-29, 34-35. *)
Definition hide_at (s : st) (a : addr) : res st :=
  match read s a with
  | Some (KAttr _ k _ _ _ _) =>
      if existsb (str_eqb k) [py "Resource"; py "org:resource"] then attr_set_value a (PStr (py "UNKNOWN")) s else Ok s
  | _ => Raise AttributeError
  end.

(** The loops over a list of globals and over the values of a map: lines 15, 20, 27, 33. *)
Definition hide_list (l : addr) (s : st) : res st := let! as_ := get_attrs s l in fold_res hide_at as_ s.
Definition hide_in (m : addr) (s : st) : res st := let! d := get_map s m in fold_res hide_at (map snd d) s.

(** Lines 31-35. *)
Definition hide_event_at (s : st) (e : addr) : res st := let! im := get_event s e in hide_in (snd im) s.

(** Lines 25-35. *)
Definition hide_trace_at (s : st) (t : addr) : res st :=
  let! me := get_trace s t in
  let! s := hide_in (fst me) s in
  fold_res hide_event_at (snd me) s.

(** Lines 14-35. *)
Definition anonymize_at (l : addr) (s : st) : res st :=
  let! lc := get_log s l in
  let! s := hide_list (lc_gtrace lc) s in
  let! s := hide_list (lc_gevent lc) s in
  fold_res hide_trace_at (lc_traces lc) s.
