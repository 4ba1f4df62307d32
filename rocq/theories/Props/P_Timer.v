(** Property C76: timers. *)
From Coq Require Import String Arith ZArith List Bool SpecFloat.
From Verif Require Import Base.PyBase Base.PyVal Base.PyFloat Model.Timer Spec.Duration Spec.Timer Proofs.TimerFacts.
Import ListNotations.
Local Open Scope Z_scope.

(** Every timer has a history. *)
Theorem C76_histories : forall ops i, (i < made ops)%nat -> exists b e, history ops i b e.
Proof. exact timer_history. Qed.
Print Assumptions C76_histories.

(** What a timer shows, whatever the readings of the clock: while it runs a difference of two
    readings in milliseconds; once stopped the difference of a reading in seconds and one in
    milliseconds. *)
Theorem C76_duration : forall import ops i b e, history ops i b e ->
  exists t, nth_error (t_run import ops) i = Some t /\ forall now, get_duration now t =
    let started := f_mul (began_at import b) (f_norm 1000 0) in
    match e with
    | None => f_sub (f_mul now (f_norm 1000 0)) started
    | Some stopped => if SFeqb started stopped then f_sub (f_mul now (f_norm 1000 0)) stopped
                      else f_sub stopped started
    end.
Proof. exact duration_is. Qed.
Print Assumptions C76_duration.

(** A running timer shows the milliseconds since it was started last, or since the module was
    imported, but for a five-hundredth of a millisecond. *)
Theorem C76_running : forall import ops i b now u v,
  history ops i b None -> reads (began_at import b) u -> reads now v ->
  exists t r, nth_error (t_run import ops) i = Some t /\ amount (get_duration now t) r
    /\ 2 ^ 9 * Z.abs (r - 1000 * (v - u)) <= smallest.
Proof. exact running_near. Qed.
Print Assumptions C76_running.

(** A stopped one shows the seconds of the stop less the milliseconds of the start, so a negative
    duration unless 998 times the age of the epoch has passed; as text it is a number of
    milliseconds. *)
Theorem C76_stopped : forall import ops i b stopped u v,
  history ops i b (Some stopped) -> reads (began_at import b) u -> reads stopped v -> v <= 999 * u ->
  exists t r, nth_error (t_run import ops) i = Some t /\ (forall now, amount (get_duration now t) r)
    /\ 2 ^ 9 * Z.abs (r - (v - 1000 * u)) <= smallest /\ r < 0
    /\ forall (FIO : FloatIO) now,
         get_duration_string now t = (float_repr (get_duration now t) ++ py " milliseconds")%list.
Proof. exact stopped_near. Qed.
Print Assumptions C76_stopped.

(** It is false that a stopped timer shows what passed between start and stop. *)
Theorem C76_elapsed_refuted : ~ (forall import ops i start stopped t now u v r,
  history ops i (Started start) (Some stopped) -> nth_error (t_run import ops) i = Some t ->
  reads start u -> reads stopped v -> u <= v -> amount (get_duration now t) r ->
  2 ^ 9 * Z.abs (r - 1000 * (v - u)) <= smallest).
Proof.
  intros H. pose (f n := f_norm n 0).
  specialize (H (f 1) [TNew; TStart 0 (f 7); TStop 0 (f 9)] 0%nat (f 7) (f 9) (mk_timer (f 7000) (f 9)) (f 10)
                (7 * smallest) (9 * smallest) (- 6991 * smallest)).
  assert (history [TNew; TStart 0 (f 7); TStop 0 (f 9)] 0 (Started (f 7)) (Some (f 9))) as K.
  { apply (h_stop [TNew; TStart 0 (f 7)] 0 (Started (f 7)) None). apply (h_start [TNew] 0 Imported None). apply (h_new []). }
  specialize (H K). vm_compute in H.
  refine (H eq_refl _ _ _ _ eq_refl); repeat split; try discriminate.
Qed.
Print Assumptions C76_elapsed_refuted.

(** Two timers made; the first was started at 20 and stopped at 50, the second never. *)
Definition at_ (n : Z) : spec_float := f_norm n 0.
Definition timed : list top := [TNew; TNew; TStart 0 (at_ 20); TStop 0 (at_ 50)].
Example C76_example :
  history timed 0 (Started (at_ 20)) (Some (at_ 50)) /\ history timed 1 Imported None
  /\ reads (at_ 20) (20 * smallest) /\ reads (at_ 50) (50 * smallest) /\ reads (at_ 10) (10 * smallest)
  /\ map (get_duration (at_ 60)) (t_run (at_ 10) timed) = [at_ (-19950); at_ 50000].
Proof.
  split; [|split; [|repeat split; vm_compute; reflexivity || discriminate]].
  - apply (h_stop [TNew; TNew; TStart 0 (at_ 20)] 0 (Started (at_ 20)) None). apply (h_start [TNew; TNew] 0 Imported None).
    apply (h_other [TNew] 0 Imported None TNew); [apply (h_new [])|reflexivity].
  - apply (h_other [TNew; TNew; TStart 0 (at_ 20)]); [|reflexivity]. apply (h_other [TNew; TNew]); [|reflexivity].
    apply (h_new [TNew]).
Qed.
