(** Timers. *)
From Coq Require Import String Arith ZArith List Bool SpecFloat Lia.
From Verif Require Import Base.PyBase Base.PyVal Base.PyFloat Model.Duration Model.Timer Spec.Duration Spec.Timer
  Proofs.IdFacts Proofs.WrapperFacts Proofs.FloatFacts Proofs.RoundFacts Proofs.DurationFacts.
Import ListNotations.
Local Open Scope Z_scope.

Lemma t_run_snoc import ops o : t_run import (ops ++ [o]) = t_step import (t_run import ops) o.
Proof. unfold t_run. now rewrite fold_left_app. Qed.
Lemma made_snoc ops o : made (ops ++ [o]) = (made ops + match o with TNew => 1 | _ => 0 end)%nat.
Proof. unfold made. rewrite filter_app, app_length. now destruct o. Qed.
Lemma run_length import ops : List.length (t_run import ops) = made ops.
Proof.
  induction ops as [|o ops IH] using rev_ind; [easy|]. rewrite t_run_snoc, made_snoc.
  destruct o; cbn [t_step]; rewrite ?app_length, ?update_length'; cbn; lia.
Qed.

(** The state of a timer as its history has it. *)
Lemma history_state import ops i b e : history ops i b e ->
  nth_error (t_run import ops) i =
  Some (mk_timer (in_millis (began_at import b)) (match e with Some t => t | None => in_millis (began_at import b) end)).
Proof.
  induction 1 as [ops|ops i b e now _ IH|ops i b e now _ IH|ops i b e o _ IH C]; rewrite t_run_snoc; cbn [t_step].
  - rewrite <- (run_length import). now rewrite app_nth_last.
  - rewrite nth_update, Nat.eqb_refl, IH. reflexivity.
  - rewrite nth_update, Nat.eqb_refl, IH. reflexivity.
  - destruct o as [|j now|j now]; cbn in C.
    + cbn [t_step]. rewrite nth_error_app1; [easy|]. apply nth_error_Some. congruence.
    + cbn [t_step]. rewrite nth_update, Nat.eqb_sym, C. exact IH.
    + cbn [t_step]. rewrite nth_update, Nat.eqb_sym, C. exact IH.
Qed.

Theorem timer_history ops i : (i < made ops)%nat -> exists b e, history ops i b e.
Proof.
  induction ops as [|o ops IH] using rev_ind; [cbn; lia|]. rewrite made_snoc. intros L.
  destruct (lt_dec i (made ops)) as [L'|L'].
  - destruct (IH L') as (b & e & H). destruct (concerns i o) eqn:C; [|exists b, e; now apply h_other].
    destruct o as [|j now|j now]; [discriminate| |]; apply Nat.eqb_eq in C; subst j.
    + exists (Started now), None. now apply (h_start ops i b e).
    + exists b, (Some now). now apply (h_stop ops i b e).
  - destruct o as [|j now|j now]; [|lia|lia]. replace i with (made ops) by lia. exists Imported, None. apply h_new.
Qed.

Lemma eqb_refl_or x : SFeqb x x = true \/ x = S754_nan.
Proof.
  destruct x as [s|s| |s m e]; [left; reflexivity|destruct s; left; reflexivity|now right|left].
  unfold SFeqb, SFcompare. rewrite Z.compare_refl, Pos.compare_cont_refl. now destruct s.
Qed.
Lemma sub_nan x : f_sub x S754_nan = S754_nan.
Proof. now destruct x. Qed.

Theorem duration_is import ops i b e : history ops i b e ->
  exists t, nth_error (t_run import ops) i = Some t /\ forall now, get_duration now t =
    let started := f_mul (began_at import b) (f_norm 1000 0) in
    match e with
    | None => f_sub (f_mul now (f_norm 1000 0)) started
    | Some stopped => if SFeqb started stopped then f_sub (f_mul now (f_norm 1000 0)) stopped
                      else f_sub stopped started
    end.
Proof.
  intros H. eexists. split; [apply (history_state import _ _ _ _ H)|]. intros now. unfold get_duration. cbn [t_start t_stop].
  destruct e as [t|]; [reflexivity|]. unfold in_millis. cbv zeta.
  destruct (eqb_refl_or (f_mul (began_at import b) (f_norm 1000 0))) as [->| ->]; [reflexivity|].
  now rewrite !sub_nan.
Qed.

Theorem running_near import ops i b now u v : history ops i b None -> reads (began_at import b) u -> reads now v ->
  exists t r, nth_error (t_run import ops) i = Some t /\ amount (get_duration now t) r
    /\ 2 ^ 9 * Z.abs (r - 1000 * (v - u)) <= smallest.
Proof.
  intros H [B BU] [N NV]. destruct (duration_is import ops i b _ H) as (t & T & D). specialize (D now). cbv zeta in D.
  destruct (mul_thousand _ _ B BU) as (a & A & EA). destruct (mul_thousand _ _ N NV) as (c & C & EC).
  assert (S0 := smallest_pos). change (2 ^ 11) with 2048 in *. change (2 ^ 33) with 8589934592 in *.
  destruct (sub_near _ _ _ _ C A) as (r & R & ER); [lia|lia|change (2 ^ 43) with 8796093022208; lia|].
  exists t, r. split; [exact T|]. rewrite D. split; [exact R|]. change (2 ^ 11) with 2048 in *. change (2 ^ 9) with 512. lia.
Qed.

Theorem stopped_near import ops i b stopped u v : history ops i b (Some stopped) -> reads (began_at import b) u ->
  reads stopped v -> v <= 999 * u ->
  exists t r, nth_error (t_run import ops) i = Some t /\ (forall now, amount (get_duration now t) r)
    /\ 2 ^ 9 * Z.abs (r - (v - 1000 * u)) <= smallest /\ r < 0
    /\ forall (FIO : FloatIO) now, get_duration_string now t = (float_repr (get_duration now t) ++ py " milliseconds")%list.
Proof.
  intros H [B BU] [N NV] L. destruct (duration_is import ops i b _ H) as (t & T & D). cbv zeta in D.
  destruct (mul_thousand _ _ B BU) as (a & A & EA).
  assert (S0 := smallest_pos). change (2 ^ 11) with 2048 in *. change (2 ^ 33) with 8589934592 in *.
  destruct (sub_near _ _ _ _ N A) as (r & R & ER); [lia|lia|change (2 ^ 43) with 8796093022208; lia|].
  assert (NE : SFeqb (f_mul (began_at import b) (f_norm 1000 0)) stopped = false).
  { destruct (SFeqb _ _) eqn:Q; [|reflexivity]. exfalso.
    destruct (worth_finite _ _ A ltac:(lia)) as (m & e & E1 & _ & _ & U1 & _).
    destruct (worth_finite _ _ N ltac:(lia)) as (n & k & E2 & _ & _ & U2 & _).
    rewrite E1, E2 in Q. unfold SFeqb, SFcompare in Q. destruct (Z.compare_spec e k); try discriminate. subst k.
    destruct (Pos.compare_cont Eq m n) eqn:PC; try discriminate. apply (Pos.compare_eq m n) in PC. subst n. lia. }
  change (2 ^ 11) with 2048 in ER. assert (NEG : r < 0) by lia.
  exists t, r. split; [exact T|].
  assert (X : forall now, get_duration now t = f_sub stopped (f_mul (began_at import b) (f_norm 1000 0))).
  { intros now. rewrite D, NE. reflexivity. }
  split; [intros now; now rewrite X|]. split; [change (2 ^ 9) with 512; lia|]. split; [exact NEG|].
  intros FIO now. unfold get_duration_string. rewrite X. remember (f_sub _ _) as f. clear - R NEG.
  destruct f as [s|s| |[|] m e]; cbn [amount worth] in R.
  - exfalso. clear - R NEG. lia.
  - easy.
  - easy.
  - apply (proj1 float_other).
  - exfalso. destruct R as [_ ->]. pose proof (Z.pow_nonneg 2 (e + 1074)). nia.
Qed.
