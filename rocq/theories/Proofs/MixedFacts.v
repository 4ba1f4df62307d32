(** Comparing attributes of different classes. *)
From Coq Require Import String NArith ZArith List Bool Lia SpecFloat.
From Verif Require Import Base.PyBase Base.PyDate Base.PyVal Model.Attr Spec.Typing Spec.Orders Spec.Mixed
  Proofs.BaseFacts Proofs.OrderFacts.
Import ListNotations.
Local Open Scope Z_scope.

Section WithFloatIO.
Context `{FIO : FloatIO}.

Lemma by_key a b : a_key a <> a_key b ->
  exists r, compare_to a b = Ok r /\ compare_to b a = Ok (- r) /\ r <> 0
  /\ (r < 0 <-> lex_lt (a_key a) (a_key b)) /\ (0 < r <-> lex_lt (a_key b) (a_key a)).
Proof.
  intros N. unfold compare_to. rewrite !key_compare_sign. cbn [bind]. rewrite (str_cmp_antisym (a_key a) (a_key b)).
  exists (sign_of (str_cmp (a_key a) (a_key b))). rewrite !lex_lt_cmp, <- (str_cmp_gt_lt (a_key a) (a_key b)).
  destruct (str_cmp (a_key a) (a_key b)) eqn:E; [apply str_cmp_eq in E; now destruct N| |]; cbn; (do 3 (split; [easy|])); split; split; easy.
Qed.

Lemma same_key a b : a_key a = a_key b -> compare_to a b = value_compare (a_cls a) (a_val a) b.
Proof. intros E. unfold compare_to. rewrite key_compare_sign, E, str_cmp_refl. reflexivity. Qed.

Lemma dt_answer (d d' : datetime) : (exists c, dt_cmp d d' = Ok c) <-> (tz d = None <-> tz d' = None).
Proof.
  unfold dt_cmp, is_aware. destruct (tz d), (tz d'); cbn; split; try easy; try (intros _; now eexists).
  - intros [c [=]].
  - intros [_ H]. now specialize (H eq_refl).
  - intros [c [=]].
  - intros [H _]. now specialize (H eq_refl).
Qed.

Lemma compare_numbers v w x y : num_of v = Some x -> num_of w = Some y -> exists r, compare_to_number v w = Ok r.
Proof. intros A B. unfold compare_to_number, py_eq, py_gt. rewrite A, B. cbn. destruct (num_cmp x y) as [[]|]; eauto. Qed.
Lemma compare_booleans v w : exists r, compare_to_boolean v w = Ok r.
Proof. unfold compare_to_boolean. destruct (py_eq v w); eauto. Qed.
Lemma compare_strings s t : exists r, compare_to_string (PStr s) (PStr t) = Ok r.
Proof. unfold compare_to_string. cbn. destruct (str_eqb s t); cbn; eauto. Qed.
Lemma float_bool b : exists f, py_float (PBool b) = Ok f.
Proof. destruct b; vm_compute; eauto. Qed.
Lemma compare_dates d d' : (let! g := py_gt (PDate d) (PDate d') in Ok (if g then 1 else -1)) =
  match dt_cmp d d' with Ok c => Ok (match c with Gt => 1 | _ => -1 end) | Raise e => Raise e end.
Proof. cbn. destruct (dt_cmp d d') as [[]|]; reflexivity. Qed.

Inductive outcome (a b : attr) : res Z -> Prop :=
| answered r : comparable a b -> outcome a b (Ok r)
| failed e : ~ comparable a b -> order_error a b e -> outcome a b (Raise e).
Lemma continuous_case f v r : (r = match py_float v with Ok g => compare_to_number (PFloat f) (PFloat g) | Raise e => Raise e end) ->
  match r with Ok _ => exists g, py_float v = Ok g | Raise e => py_float v = Raise e end.
Proof.
  intros ->. destruct (py_float v) as [g|e]; [|reflexivity].
  destruct (compare_numbers (PFloat f) (PFloat g) _ _ eq_refl eq_refl) as (r & ->). eauto.
Qed.
Lemma float_error v e : py_float v = Raise e ->
  match v with PInt _ | PBool _ => e = OverflowError | PStr _ => e = ValueError | _ => e = TypeError end.
Proof.
  destruct v; cbn; try (intros [= <-]; reflexivity).
  - destruct (float_of_str s); [discriminate|now intros [= <-]].
  - unfold float_of_int. destruct (binary_normalize _ _ _ _ _); try discriminate. now intros [= <-].
  - unfold float_of_int. destruct (binary_normalize _ _ _ _ _); try discriminate. now intros [= <-].
Qed.

Lemma outcomes a b : well_typed a -> well_typed b -> a_key a = a_key b -> outcome a b (compare_to a b).
Proof.
  intros WA WB E. rewrite (same_key a b E). clear E.
  destruct a as [c k x v co m], b as [c' k' x' v' co' m']. unfold well_typed in *. cbn [a_cls a_val] in *.
  destruct (is_collection c) eqn:C.
  { replace (value_compare c v _) with (@Ok Z 0) by (destruct c; try discriminate; reflexivity). constructor.
    unfold comparable. cbn. destruct c; try discriminate; exact I. }
  destruct (is_collection c') eqn:C'.
  { replace (value_compare c v _) with (@Raise Z AttributeError).
    - constructor; unfold comparable, order_error; cbn; destruct c, c'; try discriminate; auto.
    - unfold value_compare, get_value. cbn [a_cls]. rewrite C'. destruct c, v; try discriminate; try contradiction; reflexivity. }
  assert (G : get_value (mk_attr c' k' x' v' co' m') = Ok v') by (unfold get_value; cbn [a_cls a_val]; now rewrite C').
  destruct c; try discriminate C; destruct v; try contradiction; cbn [value_compare].
  - (* literal *)
    rewrite G. cbn [bind]. destruct c'; try discriminate C'; destruct v'; try contradiction;
      [|constructor; cbn; auto ..].
    destruct (compare_strings s s0) as (r & ->). constructor. exact I.
  - (* timestamp *)
    rewrite G. cbn [bind]. destruct c'; try discriminate C'; destruct v'; try contradiction;
      try (constructor; cbn; auto; fail).
    rewrite compare_dates. pose proof (dt_answer d d0) as A. cbn [py_eq num_of].
    destruct (dt_eqb d d0) eqn:Q.
    + constructor. unfold comparable. cbn. unfold dt_eqb, is_aware in Q. destruct (tz d), (tz d0); try discriminate Q; easy.
    + destruct (dt_cmp d d0) as [o|e] eqn:D.
      * constructor. unfold comparable. cbn. apply A. eauto.
      * constructor; [unfold comparable; cbn; intros X; apply A in X as (? & [=])|].
        cbn. unfold dt_cmp in D. destruct (Bool.eqb _ _); [discriminate|]. now injection D as <-.
  - (* discrete *)
    rewrite G. cbn [bind]. destruct c'; try discriminate C'; destruct v'; try contradiction;
      try (constructor; cbn; auto; fail);
      match goal with |- outcome _ _ (compare_to_number ?v ?w) =>
        destruct (compare_numbers v w _ _ eq_refl eq_refl) as (r & ->); constructor; exact I end.
  - (* continuous *)
    rewrite G. cbn [py_float bind].
    pose proof (continuous_case f v' _ eq_refl) as K.
    destruct (let! g := py_float v' in compare_to_number (PFloat f) (PFloat g)) as [r|e] eqn:Q;
      (assert (Q' : (match py_float v' with Ok g => compare_to_number (PFloat f) (PFloat g) | Raise e => Raise e end) = _) by exact Q);
      rewrite Q' in K; clear Q Q'.
    + constructor. destruct K as (g & K). unfold comparable. destruct c'; try discriminate C'; destruct v'; try contradiction; cbn in *;
        try discriminate K; eauto.
    + pose proof (float_error _ _ K) as X. constructor.
      * unfold comparable. destruct c'; try discriminate C'; destruct v'; try contradiction; cbn [a_cls a_val] in *; auto; try discriminate K;
          try (intros (g & Y); rewrite K in Y; discriminate).
        intros _. destruct (float_bool b) as (g & Y). rewrite K in Y. discriminate.
      * unfold order_error. destruct c'; try discriminate C'; destruct v'; try contradiction; cbn [a_cls a_val] in *; auto; try discriminate K.
        destruct (float_bool b) as (g & Y). rewrite K in Y. discriminate.
  - (* boolean *)
    rewrite G. cbn [bind]. match goal with |- outcome _ _ (compare_to_boolean ?v ?w) => destruct (compare_booleans v w) as (r & ->) end.
    constructor. unfold comparable. cbn. now destruct c'.
  - (* id *)
    rewrite G. cbn [bind]. destruct c'; try discriminate C'; destruct v'; try contradiction; constructor; cbn; auto.
Qed.

Lemma answers a b : well_typed a -> well_typed b -> a_key a = a_key b ->
  ((exists r, compare_to a b = Ok r) <-> comparable a b) /\ (forall e, compare_to a b = Raise e -> order_error a b e).
Proof.
  intros A B E. pose proof (outcomes a b A B E) as O. inversion O as [r C Q|e C D Q].
  - split; [split; eauto|discriminate].
  - split; [split; [intros (r & [=])|intros X; contradiction]|]. now intros ? [= <-].
Qed.

(** Booleans and whole numbers. *)
Lemma fin_cmp_int x y : fin_cmp x 0 y 0 = (x ?= y).
Proof. unfold fin_cmp. cbn [Z.min Z.sub Z.compare]. now rewrite !Z.mul_1_r. Qed.
Lemma bool_int b z k x x' co co' m m' :
  let p := mk_attr CBoolean k x (PBool b) co m in let q := mk_attr CDiscrete k x' (PInt z) co' m' in
  exists r s, compare_to p q = Ok r /\ compare_to q p = Ok s /\ (r = - s <-> 0 <= z) /\ (z < 0 -> r = -1 /\ s = -1)
  /\ (r = 0 <-> z = if b then 1 else 0).
Proof.
  intros p q. rewrite !same_key by reflexivity. unfold p, q. cbn [value_compare a_cls a_val get_value is_collection bind].
  unfold compare_to_boolean, compare_to_number, py_eq, py_gt. cbn [num_of num_cmp truthy bind]. rewrite !fin_cmp_int.
  assert (D : (z ?= (if b then 1 else 0)) = CompOpp ((if b then 1 else 0) ?= z)) by apply Z.compare_antisym. 
  destruct b; cbn [negb andb]; rewrite D.
  - destruct (Z.compare_spec 1 z) as [<-|L|L]; cbn; (do 2 eexists; do 2 (split; [reflexivity|])).
    + lia.
    + destruct (z =? 0) eqn:Y; cbn; [apply Z.eqb_eq in Y|apply Z.eqb_neq in Y]; lia.
    + destruct (z =? 0) eqn:Y; cbn; [apply Z.eqb_eq in Y|apply Z.eqb_neq in Y]; lia.
  - destruct (Z.compare_spec 0 z) as [<-|L|L]; cbn; (do 2 eexists; do 2 (split; [reflexivity|])); lia.
Qed.
End WithFloatIO.
