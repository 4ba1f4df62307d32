(** Time stamps as numbers of milliseconds on a machine whose offset from UTC changes:
    [Model.Millis] for the clock of [Base.PyZone]. *)
From Coq Require Import ZArith.
From Verif Require Import Base.PyBase Base.PyDate Base.PyClock Base.PyVal Base.PyZone Model.StdExt.

(** The clock behind /repo/src/opyenxes/model/XAttributeTimestamp.py:36 and 47; what it does
    with very large numbers is left open ([other]). *)
Definition zone_clock (off mk : Z -> Z) (other : pyval -> res datetime) : Clock := {|
  mktime_ms := fun d => Ok (ms_float (ms_of_zone mk d));
  from_ms := from_thousandths (zone_of off) other |}.
