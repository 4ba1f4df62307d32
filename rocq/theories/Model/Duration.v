(** Durations as text, for floats: /repo/src/opyenxes/utils/XTimer.py ([Model.Token] has the
    case of an int). *)
From Coq Require Import String NArith ZArith List Bool SpecFloat.
From Verif Require Import Base.PyBase Base.PyVal Base.PyFloat.
Import ListNotations.

Section WithFloatIO.
Context `{FIO : FloatIO}.

(** One of the four parts, e.g. XTimer.py:62-65. *)
Definition float_part (unit : Z) (label : pystr) (sm : pystr * spec_float) : pystr * spec_float :=
  let '(sb, millis) := sm in
  match num_cmp (num_of_float millis) (NFin unit 0) with
  | Some Gt => let '(q, r) := f_divmod millis (f_norm unit 0) in (sb ++ float_repr q ++ label, r)
  | _ => (sb, millis)
  end.
(** format_duration: XTimer.py:52-84, for a float. *)
Definition format_float (millis : spec_float) : pystr :=
  let sm := float_part 86400000 (py " days, ") ([], millis) in         (* lines 62-65 *)
  let sm := float_part 3600000 (py " hours, ") sm in                   (* lines 67-70 *)
  let sm := float_part 60000 (py " minutes, ") sm in                   (* lines 72-75 *)
  let '(sb, millis) := float_part 1000 (py " seconds, ") sm in         (* lines 77-80 *)
  sb ++ float_repr millis ++ py " milliseconds".                       (* lines 82-84 *)
End WithFloatIO.
