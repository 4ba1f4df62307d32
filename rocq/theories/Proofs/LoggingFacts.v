(** Log messages. *)
From Coq Require Import String Arith NArith List Bool Lia.
From Verif Require Import Base.PyBase Model.Logging Spec.Logging Proofs.IdFacts Proofs.WrapperFacts.
Import ListNotations.

Lemma g_run_snoc ops o : g_run (ops ++ [o]) = g_step (g_run ops) o.
Proof. unfold g_run. now rewrite fold_left_app. Qed.
Lemma new_snoc ops o : new_loggers (ops ++ [o]) = new_loggers ops + match o with GNew => 1 | _ => 0 end.
Proof. unfold new_loggers. rewrite filter_app, app_length. now destruct o. Qed.
Lemma loggers_length ops : List.length (g_loggers (g_run ops)) = new_loggers ops.
Proof.
  induction ops as [|o ops IH] using rev_ind; [easy|]. rewrite g_run_snoc, new_snoc.
  destruct o as [|i l|i t p|t p]; cbn [g_step]; try destruct (nth_error _ _); cbn [g_loggers];
    rewrite ?app_length, ?update_length'; cbn [List.length]; lia.
Qed.

Lemma sends_state ops i l : sends_to ops i l -> nth_error (g_loggers (g_run ops)) i = Some l.
Proof.
  induction 1 as [ops|ops i l l' _ IH|ops i l o _ IH No]; rewrite g_run_snoc; cbn [g_step].
  - cbn [g_loggers]. rewrite <- (loggers_length ops). apply app_nth_last.
  - cbn [g_loggers]. rewrite nth_update, Nat.eqb_refl, IH. reflexivity.
  - destruct o as [|j l'|j t p|t p]; cbn [g_step g_loggers].
    + rewrite nth_error_app1; [easy|]. apply nth_error_Some. congruence.
    + rewrite nth_update. destruct (Nat.eqb_spec j i) as [->|]; [now destruct (No l')|easy].
    + destruct (nth_error (g_loggers (g_run ops)) j); cbn [g_loggers]; exact IH.
    + exact IH.
Qed.

Theorem sends_exists ops i : i < new_loggers ops -> exists l, sends_to ops i l.
Proof.
  induction ops as [|o ops IH] using rev_ind; [cbn; lia|]. rewrite new_snoc. intros L.
  destruct (lt_dec i (new_loggers ops)) as [L'|L'].
  - destruct (IH L') as (l & H). destruct o as [|j l'|j t p|t p].
    + exists l. now apply st_other.
    + destruct (Nat.eq_dec j i) as [->|Ne]; [exists l'; now apply (st_set _ _ l)|exists l; apply st_other; [easy|congruence]].
    + exists l. now apply st_other.
    + exists l. now apply st_other.
  - destruct o as [|j l'|j t p|t p]; try lia. replace i with (new_loggers ops) by lia. exists (Some LStd). apply st_new.
Qed.

Theorem message_sent ops i l t p : sends_to ops i l ->
  g_sent (g_run (ops ++ [GLog i t p])) = g_sent (g_run ops) ++
    match l with Some l => [(l, (match p with Some p => p | None => py "DEBUG" end, t))] | None => [] end.
Proof. intros H. rewrite g_run_snoc. cbn [g_step]. rewrite (sends_state _ _ _ H). reflexivity. Qed.

Theorem library_prints ops : (forall o, In o ops -> callers o = false) ->
  g_sent (g_run ops) = map (pair LStd) (library ops).
Proof.
  induction ops as [|o ops IH] using rev_ind; [easy|]. intros N.
  assert (library (ops ++ [o]) = library ops ++ library [o]) as -> by apply flat_map_app.
  rewrite g_run_snoc, map_app, <- IH.
  2:{ intros o' I. apply N. apply in_app_iff. now left. }
  specialize (N o ltac:(apply in_app_iff; right; now left)).
  destruct o; cbn [g_step g_sent library flat_map map app log_message]; rewrite ?app_nil_r; easy.
Qed.

Theorem library_message ops t p : g_sent (g_run (ops ++ [GLibrary t p])) = g_sent (g_run ops) ++ [(LStd, (p, t))].
Proof. rewrite g_run_snoc. reflexivity. Qed.
