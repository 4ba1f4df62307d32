(** Timers: /repo/src/opyenxes/utils/XTimer.py.  A reading of the clock is what [time.time()]
    gives, a double. *)
From Coq Require Import ZArith List Bool SpecFloat.
From Verif Require Import Base.PyBase Base.PyVal Base.PyFloat Model.Duration.
Import ListNotations.

(** [__start] and [__stop] as seen through the object: XTimer.py:15-18. *)
Record timer : Type := mk_timer { t_start : spec_float; t_stop : spec_float }.

(** What a program does: [XTimer()], [start()] and [stop()] of timer [i]; [now] is the reading
    of the clock. *)
Inductive top : Type := TNew | TStart (i : nat) (now : spec_float) | TStop (i : nat) (now : spec_float).

(** [time.time() * 1000]. *)
Definition in_millis (now : spec_float) : spec_float := f_mul now (f_norm 1000 0).

Section Timer.
(** The reading of the clock when the module was imported. *)
Context (import : spec_float).

(** XTimer.__init__: XTimer.py:15-18; [__start] is that of the class. *)
Definition new_timer : timer := mk_timer (in_millis import) (in_millis import).
(** start: XTimer.py:20-25. *)
Definition start_timer (now : spec_float) (t : timer) : timer := mk_timer (in_millis now) (in_millis now).
(** stop: XTimer.py:27-31. *)
Definition stop_timer (now : spec_float) (t : timer) : timer := mk_timer (t_start t) now.
(** get_duration: XTimer.py:33-41. *)
Definition get_duration (now : spec_float) (t : timer) : spec_float :=
  if SFeqb (t_start t) (t_stop t) then f_sub (in_millis now) (t_stop t) else f_sub (t_stop t) (t_start t).
(** get_duration_string: XTimer.py:43-50. *)
Definition get_duration_string `{FloatIO} (now : spec_float) (t : timer) : pystr := format_float (get_duration now t).

Definition t_step (ts : list timer) (o : top) : list timer :=
  match o with
  | TNew => ts ++ [new_timer]
  | TStart i now => update i (start_timer now) ts
  | TStop i now => update i (stop_timer now) ts
  end.
Definition t_run (ops : list top) : list timer := fold_left t_step ops [].
End Timer.
