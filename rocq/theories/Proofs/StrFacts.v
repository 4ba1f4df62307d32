(** Lemmas about splitting, joining, replacing and searching text. *)
From Coq Require Import String NArith ZArith List Bool Lia.
From Verif Require Import Base.Unicode Base.PyBase Proofs.BaseFacts.
Import ListNotations.

Lemma starts_with_spec p s : starts_with p s = true <-> exists t, s = p ++ t.
Proof.
  revert s; induction p as [|x p IH]; intros s; simpl.
  - split; eauto.
  - destruct s as [|y s].
    + split; [discriminate|]. intros [t [=]].
    + rewrite andb_true_iff, N.eqb_eq, IH. split.
      * intros [-> [t ->]]. eauto.
      * intros [t [= -> ->]]. eauto.
Qed.

Lemma mem_char_spec c s : mem_char c s = true <-> In c s.
Proof.
  unfold mem_char. rewrite existsb_exists. split.
  - intros (x & H & E). apply N.eqb_eq in E. now subst.
  - intros H. exists c. split; auto. apply N.eqb_refl.
Qed.

Lemma mem_char_false c s : mem_char c s = false <-> ~ In c s.
Proof. rewrite <- mem_char_spec. destruct (mem_char c s); split; congruence. Qed.

Lemma contains_spec sub s : contains sub s = true <-> exists a b, s = a ++ sub ++ b.
Proof.
  induction s as [|c s IH].
  - cbn [contains]. rewrite orb_false_r, starts_with_spec. split.
    + intros [t H]. exists [], t. auto.
    + intros (a & b & H). destruct a; [|discriminate]. simpl in H. eauto.
  - cbn [contains]. rewrite orb_true_iff, IH, starts_with_spec. split.
    + intros [[t H]|(a & b & H)].
      * exists [], t. auto.
      * exists (c :: a), b. simpl. congruence.
    + intros (a & b & H). destruct a as [|x a]; simpl in H.
      * left. eauto.
      * right. injection H as -> H. eauto.
Qed.

(** ** Splitting *)

Lemma split_aux_acc sep skip acc s :
  split_aux sep skip acc s
  = match split_aux sep skip [] s with
    | [] => []
    | h :: r => (rev acc ++ h) :: r
    end.
Proof.
  revert skip acc; induction s as [|c s IH]; intros skip acc; cbn [split_aux].
  - simpl. now rewrite app_nil_r.
  - destruct skip as [|k].
    + destruct (starts_with sep (c :: s)).
      * simpl. now rewrite app_nil_r.
      * rewrite (IH 0%nat (c :: acc)), (IH 0%nat [c]).
        destruct (split_aux sep 0 [] s); auto. simpl. now rewrite <- app_assoc.
    + apply IH.
Qed.

Lemma split_aux_nonnil sep skip acc s : split_aux sep skip acc s <> [].
Proof.
  revert skip acc; induction s as [|c s IH]; intros; cbn [split_aux]; [easy|].
  destruct skip; auto. destruct (starts_with _ _); auto. easy.
Qed.

Lemma split_nonnil sep s : split sep s <> [].
Proof. apply split_aux_nonnil. Qed.

(** Splitting at a single character. *)
Lemma split1_nil c : split [c] [] = [[]].
Proof. reflexivity. Qed.

Lemma split1_here c t : split [c] (c :: t) = [] :: split [c] t.
Proof. unfold split. cbn [split_aux starts_with]. rewrite N.eqb_refl. reflexivity. Qed.

Lemma split1_other c x t : x <> c ->
  split [c] (x :: t) = match split [c] t with [] => [] | h :: r => (x :: h) :: r end.
Proof.
  intros N. unfold split. cbn [split_aux starts_with].
  rewrite (proj2 (N.eqb_neq c x)) by congruence. cbn [andb].
  rewrite split_aux_acc. reflexivity.
Qed.

Lemma split1_absent c s : ~ In c s -> split [c] s = [s].
Proof.
  induction s as [|x s IH]; intros H; auto.
  rewrite split1_other by (intros ->; apply H; simpl; auto).
  rewrite IH; auto. intros I. apply H. simpl; auto.
Qed.

Lemma split1_app c a s : ~ In c a ->
  split [c] (a ++ c :: s) = a :: split [c] s.
Proof.
  induction a as [|x a IH]; intros H; cbn [app].
  - apply split1_here.
  - rewrite split1_other by (intros ->; apply H; simpl; auto).
    rewrite IH; auto. intros I. apply H. simpl; auto.
Qed.

Lemma split1_parts c s : Forall (fun p => ~ In c p) (split [c] s).
Proof.
  induction s as [|x s IH].
  - repeat constructor. easy.
  - destruct (N.eq_dec x c) as [->|N].
    + rewrite split1_here. constructor; auto.
    + rewrite split1_other by auto. destruct (split [c] s) as [|h r]; auto.
      inversion IH; subst. constructor; auto.
      intros [->|I]; auto.
Qed.

Lemma join_split1 c s : join [c] (split [c] s) = s.
Proof.
  induction s as [|x s IH]; auto.
  destruct (N.eq_dec x c) as [->|N].
  - rewrite split1_here. destruct (split [c] s) as [|h r] eqn:E.
    + now apply split_nonnil in E.
    + cbn [join app] in *. now rewrite IH.
  - rewrite split1_other by auto. destruct (split [c] s) as [|h r] eqn:E.
    + now apply split_nonnil in E.
    + destruct r; cbn [join app] in *; now rewrite IH.
Qed.

(** Replacing text that does not occur. *)
Lemma split_absent x sep s : ~ In x s -> split (x :: sep) s = [s].
Proof.
  intros H. unfold split.
  assert (G : forall acc, split_aux (x :: sep) 0 acc s = [rev acc ++ s]).
  { induction s as [|c s IH]; intros acc; cbn [split_aux].
    - now rewrite app_nil_r.
    - cbn [starts_with]. rewrite (proj2 (N.eqb_neq x c)) by (intros ->; apply H; simpl; auto).
      cbn [andb]. rewrite IH by (intros I; apply H; simpl; auto). simpl. now rewrite <- app_assoc. }
  apply G.
Qed.

Lemma replace_absent x sep new s : ~ In x s -> replace (x :: sep) new s = s.
Proof. intros H. unfold replace. now rewrite split_absent. Qed.

(** Removing a single character. *)
Lemma replace1_filter c s : replace [c] [] s = filter (fun x => negb (N.eqb x c)) s.
Proof.
  unfold replace. induction s as [|x s IH]; auto.
  cbn [filter]. destruct (N.eqb_spec x c) as [->|N]; cbn [negb].
  - rewrite split1_here. destruct (split [c] s) as [|h r] eqn:E.
    + now apply split_nonnil in E.
    + cbn [join app] in *. auto.
  - rewrite split1_other by auto. destruct (split [c] s) as [|h r] eqn:E.
    + now apply split_nonnil in E.
    + rewrite <- IH. destruct r; reflexivity.
Qed.

Lemma filter_id {A} (p : A -> bool) l : Forall (fun x => p x = true) l -> filter p l = l.
Proof. induction 1; simpl; auto. now rewrite H, IHForall. Qed.

Lemma before_from c s : s = before_char c s ++ from_char c s.
Proof. induction s as [|x s IH]; auto. simpl. destruct (N.eqb x c); simpl; congruence. Qed.

Lemma before_char_app c a t : ~ In c a -> before_char c (a ++ c :: t) = a.
Proof.
  induction a as [|x a IH]; simpl; intros H.
  - now rewrite N.eqb_refl.
  - rewrite (proj2 (N.eqb_neq x c)) by (intros ->; apply H; auto). f_equal. apply IH. auto.
Qed.

Lemma from_char_app c a t : ~ In c a -> from_char c (a ++ c :: t) = c :: t.
Proof.
  induction a as [|x a IH]; simpl; intros H.
  - now rewrite N.eqb_refl.
  - rewrite (proj2 (N.eqb_neq x c)) by (intros ->; apply H; auto). apply IH. auto.
Qed.
