(** Facts about registries that programs change. *)
From Coq Require Import String NArith List Bool Arith Permutation Lia.
From Verif Require Import Base.PyBase Base.PyVal Base.Codec Model.Registry Model.FileNames Model.Files Model.Registered
  Spec.Files Spec.Registered Proofs.FileFacts.
Import ListNotations.

(** ** Histories *)

Record inv (fac dflt : nat) (cls : list pclass) (h : list lib_op) (l : lib) : Prop := mk_inv {
  i_fac : reg_default (l_factories l) = Some fac;
  i_dflt : reg_default (l_parsers l) = Some dflt;
  i_cls : map po_class (l_objs l) = cls;
  i_nodup : NoDup (reg_available (l_parsers l));
  i_in : forall i, In i (reg_available (l_parsers l)) <-> i < 4 \/ added h i }.

Lemma mem_nat (x : nat) l : existsb (Nat.eqb x) l = true <-> In x l.
Proof.
  rewrite existsb_exists. split.
  - intros (y & J & E). apply Nat.eqb_eq in E. now subst.
  - intros J. exists x. split; [exact J|apply Nat.eqb_refl].
Qed.
Lemma in_set_add (x y : nat) l : In y (set_add Nat.eqb x l) <-> y = x \/ In y l.
Proof.
  unfold set_add. destruct (existsb (Nat.eqb x) l) eqn:E.
  - apply mem_nat in E. split; [auto|]. now intros [->|J].
  - rewrite in_app_iff. cbn. intuition.
Qed.
Lemma nodup_set_add (x : nat) l : NoDup l -> NoDup (set_add Nat.eqb x l).
Proof.
  intros D. unfold set_add. destruct (existsb (Nat.eqb x) l) eqn:E; [exact D|].
  apply (Permutation_NoDup (Permutation_cons_append l x)). constructor; [|exact D].
  intros J. apply mem_nat in J. congruence.
Qed.

Definition fac_step (f : nat) (o : lib_op) : nat := match o with SetFactory g => g | _ => f end.
Definition par_step (i : nat) (o : lib_op) : nat := match o with SetParser j => j | _ => i end.
Definition cls_of (o : lib_op) : list pclass := match o with MakeParser c _ => [c] | _ => [] end.

Lemma added_snoc h o i : added (h ++ [o]) i <-> added h i \/ o = AddParser i \/ o = SetParser i.
Proof. unfold added. rewrite !in_app_iff. cbn. intuition. Qed.

Lemma inv_step fac dflt cls h l o : inv fac dflt cls h l ->
  inv (fac_step fac o) (par_step dflt o) (cls ++ cls_of o) (h ++ [o]) (lib_step l o).
Proof.
  intros [F D C ND IN]. destruct o as [f|f|c f|i|i]; cbn [fac_step par_step cls_of lib_step].
  - constructor; cbn; rewrite ?app_nil_r; auto.
    + unfold reg_register. destruct (reg_mem _ _ _); [exact F|]. unfold reg_default in *. cbn. now rewrite F.
    + intros i. rewrite added_snoc, IN. intuition discriminate.
  - constructor; cbn; rewrite ?app_nil_r; auto.
    intros i. rewrite added_snoc, IN. intuition discriminate.
  - constructor; cbn; auto.
    + rewrite map_app. cbn. now rewrite C.
    + intros i. rewrite added_snoc, IN. intuition discriminate.
  - constructor; cbn; rewrite ?app_nil_r; auto.
    + unfold reg_register. destruct (reg_mem _ _ _); [exact D|]. unfold reg_default in *. cbn. now rewrite D.
    + unfold reg_register. destruct (reg_mem _ _ _); [exact ND|]. cbn. now apply nodup_set_add.
    + intros j. rewrite added_snoc. unfold reg_register.
      destruct (reg_mem _ _ _) eqn:E.
      * rewrite IN. split; [tauto|]. intros [J|[J|[J|J]]]; auto; [|discriminate].
        injection J as <-. apply mem_nat in E. now apply IN.
      * change (reg_available _) with (set_add Nat.eqb i (reg_available (l_parsers l))).
        rewrite in_set_add, IN. split.
        -- intros [->|J]; tauto.
        -- intros [J|[J|[J|J]]]; auto; [|discriminate]. injection J as <-. auto.
  - constructor; cbn; rewrite ?app_nil_r; auto.
    + now apply nodup_set_add.
    + intros j. rewrite added_snoc.
      change (In j (set_add Nat.eqb i (reg_available (l_parsers l)))
              <-> j < 4 \/ added h j \/ SetParser i = AddParser j \/ SetParser i = SetParser j).
      rewrite in_set_add, IN. split.
      * intros [->|J]; tauto.
      * intros [J|[J|[J|J]]]; auto; [discriminate|]. injection J as <-. auto.
Qed.

Lemma inv_run h : forall fac dflt cls h0 l, inv fac dflt cls h0 l ->
  inv (fold_left fac_step h fac) (fold_left par_step h dflt) (cls ++ flat_map cls_of h) (h0 ++ h)
      (fold_left lib_step h l).
Proof.
  induction h as [|o h IH]; intros fac dflt cls h0 l H; cbn.
  - now rewrite !app_nil_r.
  - apply inv_step with (o := o), IH in H. now rewrite <- !app_assoc in H.
Qed.

Lemma lib_inv h : inv (factory_set h) (parser_set h) (made h) h (lib_run h).
Proof.
  apply (inv_run h 0 3 [Std Mxml; Std MxmlGzip; Std Xes; Std XesGzip] [] lib_init).
  constructor; try reflexivity.
  - cbn. repeat constructor; cbn; intuition discriminate.
  - intros i. cbn. unfold added. cbn. split; [intuition; subst; lia|]. intros [J|[[]|[]]]; lia.
Qed.

(** Every parser of the library is there, each object once, and the default is the one set last. *)
Lemma available_spec h :
  NoDup (reg_available (l_parsers (lib_run h)))
  /\ (forall i, In i (reg_available (l_parsers (lib_run h))) <-> i < 4 \/ added h i)
  /\ reg_default (l_parsers (lib_run h)) = Some (parser_set h)
  /\ reg_default (l_factories (lib_run h)) = Some (factory_set h).
Proof. destruct (lib_inv h). auto. Qed.

Lemma objs_class h i o : nth_error (l_objs (lib_run h)) i = Some o -> nth_error (made h) i = Some (po_class o).
Proof. intros E. rewrite <- (i_cls _ _ _ _ _ (lib_inv h)). now apply map_nth_error. Qed.
Lemma class_obj h i c : nth_error (made h) i = Some c ->
  exists o, nth_error (l_objs (lib_run h)) i = Some o /\ po_class o = c.
Proof.
  rewrite <- (i_cls _ _ _ _ _ (lib_inv h)), nth_error_map. intros E.
  destruct (nth_error (l_objs (lib_run h)) i) as [o|]; [|discriminate]. injection E as <-. now exists o.
Qed.

(** ** Parsing *)

Section Parse.
Context {A : Type} (read : parser -> nat -> bytes -> res A)
        (custom_accepts : nat -> pystr -> bool) (custom_parse : nat -> fobj -> fobj * res A).
Notation obj_parse := (obj_parse read custom_parse).
Notation obj_accepts := (obj_accepts custom_accepts).
Notation search := (search read custom_accepts custom_parse).

Lemma read_with_run h p b : read_with read (lib_run h) p b = read p (factory_set h) b.
Proof. unfold read_with, asked, new_parser. cbn. now rewrite (i_fac _ _ _ _ _ (lib_inv h)). Qed.

(** What a parser of the library does, whatever factory it was given. *)
Lemma std_object h d i p name b : nth_error (made h) i = Some (Std p) -> sget name d = Some b ->
  obj_parse (lib_run h) d i (mk_fobj name b false) = (mk_fobj name b true, read p (factory_set h) b).
Proof.
  intros E G. destruct (class_obj _ _ _ E) as (o & N & C). unfold Registered.obj_parse. rewrite N, C.
  unfold std_parse, close. cbn [fo_name fo_rest fo_closed]. rewrite G, read_with_run.
  now destruct (compressed p).
Qed.

(** The search in general. *)
Lemma all_fail_search l d order f g : all_fail (obj_accepts l) (obj_parse l d) order f g ->
  forall rest, search l d (order ++ rest) f = search l d rest g.
Proof.
  induction 1 as [f|i order f g Acc _ IH|i order f f' e g Acc P _ IH]; intros rest; cbn.
  - reflexivity.
  - now rewrite Acc, IH.
  - now rewrite Acc, P, IH.
Qed.

Lemma search_ok l d order f g a :
  search l d order f = (g, Ok a) <->
  exists before i after f', order = before ++ i :: after
    /\ all_fail (obj_accepts l) (obj_parse l d) before f f'
    /\ obj_accepts l i (fo_name f') = true /\ obj_parse l d i f' = (g, Ok a).
Proof.
  split.
  - revert f. induction order as [|i order IH]; intros f H; cbn in H; [discriminate|].
    destruct (obj_accepts l i (fo_name f)) eqn:Acc.
    + destruct (obj_parse l d i f) as [f' [a'|e]] eqn:P.
      * injection H as <- <-. exists [], i, order, f. repeat split; auto. constructor.
      * destruct (IH _ H) as (before & j & after & f1 & -> & F & Acc' & P').
        exists (i :: before), j, after, f1. repeat split; auto. eapply fail_one; eauto.
    + destruct (IH _ H) as (before & j & after & f1 & -> & F & Acc' & P').
      exists (i :: before), j, after, f1. repeat split; auto. now apply fail_skip.
  - intros (before & i & after & f' & -> & F & Acc & P). rewrite (all_fail_search _ _ _ _ _ F). cbn.
    now rewrite Acc, P.
Qed.

Lemma search_raise l d order f g e :
  search l d order f = (g, Raise e) <->
  e = PlainException /\ all_fail (obj_accepts l) (obj_parse l d) order f g.
Proof.
  split.
  - revert f. induction order as [|i order IH]; intros f H; cbn in H.
    + injection H as <- <-. split; [reflexivity|constructor].
    + destruct (obj_accepts l i (fo_name f)) eqn:Acc.
      * destruct (obj_parse l d i f) as [f' [a'|e']] eqn:P; [discriminate|].
        destruct (IH _ H) as [-> F]. split; [reflexivity|]. eapply fail_one; eauto.
      * destruct (IH _ H) as [-> F]. split; [reflexivity|]. now apply fail_skip.
  - intros [-> F]. assert (S := all_fail_search _ _ _ _ _ F []). now rewrite app_nil_r in S.
Qed.

(** When only parsers of one format take the file. *)
Lemma search_one_closed h d p name b order :
  sget name d = Some b ->
  (forall i, In i order -> obj_accepts (lib_run h) i name = true -> nth_error (made h) i = Some (Std p)) ->
  search (lib_run h) d order (mk_fobj name b true) =
    (mk_fobj name b true,
     if existsb (fun i => obj_accepts (lib_run h) i name) order && compressed p
     then match read p (factory_set h) b with Ok a => Ok a | Raise _ => Raise PlainException end
     else Raise PlainException).
Proof.
  intros G. induction order as [|i order IH]; intros U; [reflexivity|].
  cbn [Registered.search existsb fo_name].
  destruct (obj_accepts (lib_run h) i name) eqn:Acc.
  - destruct (class_obj _ _ _ (U i (or_introl eq_refl) Acc)) as (o & N & C).
    unfold Registered.obj_parse. rewrite N, C.
    unfold std_parse, close. cbn [fo_name fo_rest fo_closed orb]. rewrite G, read_with_run.
    assert (IH' := IH (fun j J => U j (or_intror J))). clear IH U.
    destruct (compressed p); cbn [andb] in *; rewrite ?andb_true_r, ?andb_false_r in *; [|exact IH'].
    destruct (read p (factory_set h) b); [reflexivity|]. rewrite IH'.
    now destruct (existsb _ order).
  - cbn [orb]. apply IH. intros j J. apply U. now right.
Qed.

Lemma search_one h d p name b order :
  sget name d = Some b ->
  (forall i, In i order -> obj_accepts (lib_run h) i name = true -> nth_error (made h) i = Some (Std p)) ->
  existsb (fun i => obj_accepts (lib_run h) i name) order = true ->
  search (lib_run h) d order (mk_fobj name b false) =
    (mk_fobj name b true,
     match read p (factory_set h) b with Ok a => Ok a | Raise _ => Raise PlainException end).
Proof.
  intros G. induction order as [|i order IH]; intros U E; [discriminate|].
  cbn [Registered.search existsb fo_name] in *.
  destruct (obj_accepts (lib_run h) i name) eqn:Acc.
  - rewrite (std_object h d i p name b (U i (or_introl eq_refl) Acc) G).
    destruct (read p (factory_set h) b) eqn:R; [reflexivity|].
    rewrite (search_one_closed h d p name b order G) by (intros j J; apply U; now right).
    rewrite R. now destruct (_ && _).
  - apply IH; [|exact E]. intros j J. apply U. now right.
Qed.

Lemma accepts_class h i name : obj_accepts (lib_run h) i name =
  match nth_error (made h) i with
  | Some (Std p) => can_parse p name | Some (Custom c) => custom_accepts c name | None => false
  end.
Proof.
  unfold Registered.obj_accepts. destruct (nth_error (l_objs (lib_run h)) i) as [o|] eqn:N.
  - now rewrite (objs_class _ _ _ N).
  - destruct (nth_error (made h) i) as [c|] eqn:M; [|reflexivity].
    destruct (class_obj _ _ _ M) as (o & N' & _). congruence.
Qed.

Lemma std_index h p : exists i, i < 4 /\ nth_error (made h) i = Some (Std p).
Proof. destruct p; [exists 0|exists 1|exists 2|exists 3]; (split; [lia|reflexivity]). Qed.

Lemma standard_search h d order p e name b :
  Permutation order (reg_available (l_parsers (lib_run h))) ->
  others custom_accepts h name -> In e (endings p) -> named e name -> sget name d = Some b ->
  search (lib_run h) d order (mk_fobj name b false) =
    (mk_fobj name b true,
     match read p (factory_set h) b with Ok a => Ok a | Raise _ => Raise PlainException end).
Proof.
  intros P O I N G. assert (C : can_parse p name = true) by (apply can_parse_spec; eauto).
  apply search_one; [exact G| |].
  - intros i _ Acc. rewrite accepts_class in Acc.
    destruct (nth_error (made h) i) as [[q|c]|] eqn:M; [| |discriminate].
    + now rewrite (one_parser _ _ _ C Acc).
    + rewrite O in Acc; [discriminate|]. now apply nth_error_In in M.
  - destruct (std_index h p) as (i & L & M). apply existsb_exists. exists i. split.
    + apply (Permutation_in _ (Permutation_sym P)). apply available_spec. now left.
    + now rewrite accepts_class, M.
Qed.

Lemma no_parser h d order f :
  others custom_accepts h (fo_name f) -> (forall p e, In e (endings p) -> ~ named e (fo_name f)) ->
  search (lib_run h) d order f = (f, Raise PlainException).
Proof.
  intros O N. induction order as [|i order IH]; cbn; [reflexivity|].
  replace (obj_accepts (lib_run h) i (fo_name f)) with false; [exact IH|]. symmetry. rewrite accepts_class.
  destruct (nth_error (made h) i) as [[q|c]|] eqn:M; [| |reflexivity].
  - destruct (can_parse q (fo_name f)) eqn:C; [|reflexivity]. apply can_parse_spec in C as (e & I & J).
    now destruct (N q e I).
  - apply O. now apply nth_error_In in M.
Qed.
End Parse.

(** The search of Model/Files.v, where the file object is left out. *)
Lemma search_load (FIO : FloatIO) (GZ : Gzip) mgr urlparse draw loc custom_accepts custom_parse h d order path b :
  Permutation order (reg_available (l_parsers (lib_run h))) -> others custom_accepts h path ->
  sget path d = Some b ->
  snd (search (fun p _ => parse_file mgr urlparse draw loc p) custom_accepts custom_parse (lib_run h) d order
         (mk_fobj path b false))
  = load mgr urlparse draw loc [Mxml; MxmlGzip; Xes; XesGzip] path d.
Proof.
  intros P O G. unfold load. rewrite G. set (four := [Mxml; MxmlGzip; Xes; XesGzip]).
  assert (D : NoDup four) by (repeat constructor; cbn; intuition discriminate).
  assert (All : forall p, In p four) by (intros []; cbn; tauto).
  destruct (existsb (fun p => can_parse p path) four) eqn:E.
  - apply existsb_exists in E as (p & _ & C). rewrite (universal_one _ p) by auto.
    apply can_parse_spec in C as (e & I & N). now rewrite (standard_search _ _ _ h d order p e path b P O I N G).
  - assert (C : forall p, can_parse p path = false).
    { intros p. destruct (can_parse p path) eqn:C; [|reflexivity]. rewrite <- E. symmetry.
      apply existsb_exists. eauto. }
    rewrite universal_none by auto. rewrite no_parser; [reflexivity|exact O|].
    intros p e I N. enough (can_parse p path = true) by (rewrite C in *; discriminate).
    apply can_parse_spec. eauto.
Qed.
