(** What the text of time bounds shows. *)
From Coq Require Import ZArith List Bool.
From Verif Require Import Base.PyBase Base.PyDate.

(** The two read the same on a clock with the same offset; the name of the zone does not count. *)
Definition same_end (x y : option datetime) : Prop :=
  match x, y with
  | None, None => True
  | Some d, Some e => (yr d, mo d, dy d) = (yr e, mo e, dy e) /\ (hh d, mi d, ss d, us d) = (hh e, mi e, ss e, us e)
                      /\ option_map tz_off (tz d) = option_map tz_off (tz e)
  | _, _ => False
  end.
Definition end_ok (x : option datetime) : Prop := match x with Some d => valid_dt d = true | None => True end.
