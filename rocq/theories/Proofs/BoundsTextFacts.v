(** The text of time bounds. *)
From Coq Require Import String NArith ZArith List Bool Lia.
From Verif Require Import Base.PyBase Base.PyDate Base.PyVal Model.TimeBounds Spec.BoundsText Spec.DateText Proofs.BaseFacts
  Proofs.DateFacts Proofs.MxmlKeptFacts.
Import ListNotations.

Definition tight (s : pystr) : Prop := Forall (fun c => c <> 32%N) s.

Lemma tight_cut s t a b : tight s -> tight t -> s ++ 32%N :: a = t ++ 32%N :: b -> s = t /\ a = b.
Proof.
  revert t. induction s as [|c s IH]; intros [|x t] S T E; cbn [app] in E.
  - now injection E.
  - injection E as <- _. inversion T; subst. congruence.
  - injection E as -> _. inversion S; subst. congruence.
  - injection E as -> E. inversion S; inversion T; subst. destruct (IH t H2 H6 E) as [-> ->]. now split.
Qed.

Lemma tight_app s t : tight s -> tight t -> tight (s ++ t).
Proof. intros. apply Forall_app. now split. Qed.
Lemma tight_pad w z : (0 <= z)%Z -> tight (pad0 w (print_Z z)).
Proof.
  intros H. destruct (padded w z H) as (ds & F & _ & ->). apply Forall_map. eapply Forall_impl; [|exact F].
  intros d B. unfold digit. cbn beta in *. lia.
Qed.

Ltac parts := repeat match goal with
  | |- tight (pad0 _ _) => apply tight_pad; lia
  | |- tight (_ ++ _) => apply tight_app
  | |- tight (if ?b then _ else _) => destruct b
  | |- tight (py _) => repeat constructor; discriminate
  | |- tight [] => constructor
  end.

(** A date-time is two words. *)
Lemma two_words d : valid_dt d = true -> exists a b, dt_str d = a ++ 32%N :: b /\ tight a /\ tight b.
Proof.
  unfold valid_dt, valid_fields. rewrite !andb_true_iff. intros [V W]. repeat match goal with H : _ /\ _ |- _ => destruct H end.
  repeat match goal with H : (_ <=? _)%Z = true |- _ => apply Z.leb_le in H end.
  exists (pad0 4 (print_Z (yr d)) ++ py "-" ++ p2 (mo d) ++ py "-" ++ p2 (dy d)).
  exists (p2 (hh d) ++ py ":" ++ p2 (mi d) ++ py ":" ++ p2 (ss d)
          ++ (if (us d =? 0)%Z then [] else py "." ++ pad0 6 (print_Z (us d)))
          ++ match tz d with None => [] | Some z => iso_offset (tz_off z) end).
  split; [unfold dt_str; now rewrite <- !app_assoc|]. split.
  - unfold p2. parts.
  - unfold p2. parts.
    destruct (tz d) as [z|]; [|constructor]. unfold iso_offset, p2. cbv zeta. set (a := Z.abs (tz_off z)).
    assert (0 <= a)%Z by apply Z.abs_nonneg.
    assert (0 <= a / 3600000000 /\ 0 <= (a / minute_us) mod 60 /\ 0 <= (a / 1000000) mod 60 /\ 0 <= a mod 1000000)%Z as (A1 & A2 & A3 & A4)
      by (repeat split; first [apply Z.div_pos; lia|apply Z.mod_pos_bound; lia]).
    parts.
Qed.

Lemma end_cut x y r s : end_ok x -> end_ok y -> end_str x ++ 32%N :: r = end_str y ++ 32%N :: s -> end_str x = end_str y /\ r = s.
Proof.
  assert (N : tight (py "None")) by (repeat constructor; discriminate).
  assert (K : forall d r s, valid_dt d = true -> py "None" ++ 32%N :: r = dt_str d ++ 32%N :: s -> False).
  { intros d r0 s0 V E. destruct (two_words d V) as (a & b & D & A & B). rewrite D, <- app_assoc in E. cbn [app] in E.
    apply tight_cut in E; [|exact N|exact A]. destruct E as [E _]. subst a.
    assert (H : hd_error (dt_str d) = Some 78%N) by now rewrite D. unfold dt_str in H.
    unfold valid_dt, valid_fields in V. rewrite !andb_true_iff in V. destruct V as [V _].
    repeat match goal with H : _ /\ _ |- _ => destruct H end.
    repeat match goal with H : (_ <=? _)%Z = true |- _ => apply Z.leb_le in H end.
    rewrite p4_four in H by lia. unfold four, two in H. cbn [app hd_error map] in H. injection H as H. unfold digit in H.
    assert (B1 := Z.div_le_upper_bound (yr d) 100 200). assert (B2 := Z.div_le_upper_bound (yr d / 100) 10 20).
    assert (B3 := Z.div_pos (yr d) 100). assert (B4 := Z.div_pos (yr d / 100) 10).
    clear - H H0 H13 B1 B2 B3 B4. remember (yr d / 100)%Z as p. remember (p / 10)%Z as q. lia. }
  destruct x as [d|], y as [e|]; cbn [end_ok end_str]; intros V W E.
  - destruct (two_words d V) as (a & b & D & A & B). destruct (two_words e W) as (a' & b' & D' & A' & B').
    rewrite D, D' in *. rewrite <- !app_assoc in E. cbn [app] in E. apply tight_cut in E; [|easy..]. destruct E as [-> E].
    apply tight_cut in E; [|easy..]. destruct E as [-> ->]. now split.
  - symmetry in E. destruct (K d _ _ V E).
  - destruct (K e _ _ W E).
  - apply tight_cut in E; [|easy..]. now split.
Qed.

Lemma end_same x y : end_ok x -> end_ok y -> (end_str x = end_str y <-> same_end x y).
Proof.
  intros V W. split.
  - intros E. assert (X : end_str x ++ 32%N :: [] = end_str y ++ 32%N :: []) by now rewrite E.
    destruct x as [d|], y as [e|]; cbn [end_ok end_str same_end] in *; [now apply same_dt_str| | |exact I].
    + destruct (two_words d V) as (a & b & D & A & _). exfalso. assert (In 32%N (dt_str d)) as H by (rewrite D; apply in_elt).
      rewrite E in H. cbn in H. intuition discriminate.
    + destruct (two_words e W) as (a & b & D & A & _). exfalso. assert (In 32%N (dt_str e)) as H by (rewrite D; apply in_elt).
      rewrite <- E in H. cbn in H. intuition discriminate.
  - destruct x as [d|], y as [e|]; cbn [end_ok end_str same_end] in *; try easy. now apply same_dt_str.
Qed.

Theorem bounds_text b c : end_ok (tb_first b) -> end_ok (tb_last b) -> end_ok (tb_first c) -> end_ok (tb_last c) ->
  (tb_str b = tb_str c <-> same_end (tb_first b) (tb_first c) /\ same_end (tb_last b) (tb_last c)).
Proof.
  intros B1 B2 C1 C2. unfold tb_str. rewrite <- (end_same _ _ B1 C1), <- (end_same _ _ B2 C2). split.
  - intros E. apply (end_cut _ _ (py "-- " ++ end_str (tb_last b)) (py "-- " ++ end_str (tb_last c)) B1 C1) in E.
    destruct E as [E1 E2]. split; [exact E1|]. now apply app_inv_head in E2.
  - now intros [-> ->].
Qed.
