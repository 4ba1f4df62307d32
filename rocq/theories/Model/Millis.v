(** Time stamps as numbers of milliseconds: /repo/src/opyenxes/model/XAttributeTimestamp.py, on
    a machine with a fixed offset from UTC. *)
From Coq Require Import String NArith ZArith List Bool.
From Verif Require Import Base.PyBase Base.PyDate Base.PyClock Base.PyVal Model.Attr Model.StdExt Model.RandomLog.
Import ListNotations.
Local Open Scope Z_scope.

(** The clock; what it does with very large numbers is left open ([other]). *)
Definition fixed_clock (off : Z) (other : pyval -> res datetime) : Clock := {|
  mktime_ms := fun d => Ok (ms_float (ms_of_local off d));
  from_ms := from_thousandths (local_of off) other |}.

(** An XAttributeTimestamp as far as its value goes.  [None]: the constructor was given
    neither a date-time nor an int and has set no value. *)
Definition stamp : Type := option datetime.

Section Stamp.
Context `{C : Clock}.
(** [platform.system() == 'Windows'] *)
Context (windows : bool).

(** __init__: XAttributeTimestamp.py:18-25, with the workaround of lines 123-132. *)
Definition stamp_init (v : pyval) : res stamp :=
  match v with
  | PDate d => Ok (Some d)
  | PInt z => let! d := from_ms (PInt (timestamp_ms windows z)) in Ok (Some d)
  | PBool b => let! d := from_ms (PInt (timestamp_ms windows (if b then 1 else 0))) in Ok (Some d)
  | _ => Ok None
  end.
(** get_value: XAttributeTimestamp.py:27-33. *)
Definition stamp_value (s : stamp) : res datetime :=
  match s with Some d => Ok d | None => Raise AttributeError end.
(** get_value_millis: XAttributeTimestamp.py:35-36. *)
Definition stamp_millis (s : stamp) : res pyval :=
  let! d := stamp_value s in mktime_ms d.
(** set_value_millis: XAttributeTimestamp.py:46-47, for a number. *)
Definition stamp_set_millis (v : pyval) : res stamp :=
  let! d := from_ms v in Ok (Some d).
End Stamp.
