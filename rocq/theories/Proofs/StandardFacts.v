From Coq Require Import String NArith ZArith List Bool Lia SpecFloat.
From Verif Require Import Base.PyBase Base.PyDate Base.PyVal Model.Attr Model.NameMap Model.Registry Model.XesRead Model.ExtParse Model.StdInit
  Spec.Registries Spec.XesParts Spec.Standard Proofs.BaseFacts Proofs.RegistryFacts Proofs.ExtFacts.
Import ListNotations.

Definition xext_eqb (a b : xext) : bool :=
  str_eqb (x_name a) (x_name b) && str_eqb (x_prefix a) (x_prefix b) && str_eqb (x_uri a) (x_uri b).
Lemma xext_same a b : xext_eqb a b = true -> a = b.
Proof.
  destruct a, b. unfold xext_eqb. cbn. intros H. apply andb_prop in H. destruct H as [H H3]. apply andb_prop in H. destruct H as [H1 H2].
  apply str_eqb_eq in H1, H2, H3. now subst.
Qed.

Section Std.
Variables (draw : std -> N) (t : datetime).

(** ** Names *)
Definition hit (m k : pystr) (n : pystr * pystr * pystr) : bool := str_eqb (fst (fst n)) m && str_eqb (snd (fst n)) k.
Definition last_name (names : list (pystr * pystr * pystr)) (m k : pystr) (r : option pystr) : option pystr :=
  fold_left (fun r n => if hit m k n then Some (snd n) else r) names r.

Lemma register_names names : forall g m k, gm_inv g ->
  gm_inv (fold_left register_name names g)
  /\ named_map (fold_left register_name names g) m k = last_name names m k (named_map g m k).
Proof.
  induction names as [|n names IH]; intros g m k I0; [split; [exact I0|reflexivity]|]. cbn [fold_left].
  destruct (IH (register_name g n) m k) as [A B]; [now apply gm_register_inv|]. split; [exact A|].
  rewrite B. unfold last_name. cbn [fold_left]. f_equal. unfold register_name, hit. now apply named_register.
Qed.
Lemma last_name_start names m k : forall r,
  last_name names m k r = match last_name names m k None with Some a => Some a | None => r end.
Proof.
  unfold last_name. induction names as [|n names IH]; intros r; [reflexivity|]. cbn [fold_left].
  destruct (hit m k n); [rewrite IH; now destruct (fold_left _ names None)|apply IH].
Qed.
Lemma last_name_none names m k : forall r, (forall n, In n names -> hit m k n = false) -> last_name names m k r = r.
Proof.
  unfold last_name. induction names as [|n names IH]; intros r H; [reflexivity|]. cbn [fold_left].
  rewrite (H n) by now left. apply IH. intros x I0. apply H. now right.
Qed.

Definition std_keys : list pystr := map fst name_rows.
Lemma str_in_dec (k : pystr) l : In k l \/ ~ In k l.
Proof. destruct (in_dec (list_eq_dec N.eq_dec) k l); auto. Qed.
Lemma names_within s : Forall (fun n => In (fst (fst n)) languages /\ In (snd (fst n)) std_keys) (si_names (init_of draw t s)).
Proof.
  apply Forall_forall. intros n I0.
  assert (B : forallb (fun n => existsb (str_eqb (fst (fst n))) languages && existsb (str_eqb (snd (fst n))) std_keys) (si_names (init_of draw t s)) = true)
    by (destruct s; vm_compute; reflexivity).
  rewrite forallb_forall in B. specialize (B n I0). apply andb_prop in B. destruct B as [B1 B2].
  apply existsb_exists in B1, B2. destruct B1 as (a & A1 & A2), B2 as (b & B1 & B2). apply str_eqb_eq in A2, B2. now subst.
Qed.
Lemma last_standard s m k : last_name (si_names (init_of draw t s)) m k None = if owns s k then standard_name m k else None.
Proof.
  pose proof (names_within s) as W. rewrite Forall_forall in W.
  assert (Q : forall b, In m languages /\ In k std_keys \/ standard_name m k = None /\ (b = true -> forall n, In n (si_names (init_of draw t s)) -> hit m k n = false)).
  { intros b. destruct (str_in_dec m languages) as [M|M]; [destruct (str_in_dec k std_keys) as [K|K]; [now left|]|]; right.
    - split.
      + unfold standard_name. now rewrite (proj2 (sget_none k name_rows) K).
      + intros _ n I0. unfold hit. destruct (str_eqb_spec (snd (fst n)) k) as [E|E]; [|now rewrite andb_false_r].
        exfalso. apply K. rewrite <- E. now apply W.
    - split.
      + unfold standard_name. destruct (sget k name_rows) as [row|]; [|reflexivity]. apply sget_none. intros I0.
        apply M. apply in_map_iff in I0. destruct I0 as ([x y] & <- & I0). now apply in_combine_l in I0.
      + intros _ n I0. unfold hit. destruct (str_eqb_spec (fst (fst n)) m) as [E|E]; [|reflexivity].
        exfalso. apply M. rewrite <- E. now apply W. }
  destruct (Q true) as [[M K]|[A B]].
  - clear Q W. unfold languages in M. cbn [In] in M.
    assert (C : forallb (fun m => forallb (fun k => match last_name (si_names (init_of draw t s)) m k None, (if owns s k then standard_name m k else None) with
        | Some a, Some b => str_eqb a b | None, None => true | _, _ => false end) std_keys) languages = true)
      by (destruct s; vm_compute; reflexivity).
    rewrite forallb_forall in C. specialize (C m). assert (M' : In m languages) by exact M. specialize (C M').
    rewrite forallb_forall in C. specialize (C k K).
    destruct (last_name _ m k None) as [a|], (if owns s k then standard_name m k else None) as [b|]; try discriminate; [|reflexivity].
    apply str_eqb_eq in C. now subst.
  - rewrite (last_name_none _ m k None (B eq_refl)), A. now destruct (owns s k).
Qed.

Lemma construct_ok s g : exists x, construct draw t s g = Ok (x, fold_left register_name (si_names (init_of draw t s)) g) /\ xo_id x = id_of s.
Proof. destruct s; cbn [construct]; unfold construct; eexists; (split; [cbn -[py fold_left]; reflexivity|reflexivity]). Qed.

Lemma construct_all_inv ss : forall g g', gm_inv g -> construct_all draw t ss g = Ok g' -> gm_inv g'.
Proof.
  unfold construct_all. induction ss as [|s ss IH]; intros g g' I0 C; cbn [fold_res] in C; [injection C as <-; exact I0|].
  destruct (construct_ok s g) as (x & E & _). rewrite E in C. cbn [bind snd] in C. eapply IH; [|exact C].
  apply (register_names (si_names (init_of draw t s)) g [] [] I0).
Qed.
Theorem standard_aliases ss h : exists g', construct_all draw t ss (nrun h) = Ok g' /\ forall m k,
  named_map g' m k = match (if existsb (fun s => owns s k) ss then standard_name m k else None) with
                     | Some a => Some a
                     | None => named_map (nrun h) m k
                     end.
Proof.
  assert (G : forall g, gm_inv g -> exists g', construct_all draw t ss g = Ok g' /\ forall m k,
    named_map g' m k = match (if existsb (fun s => owns s k) ss then standard_name m k else None) with
                       | Some a => Some a
                       | None => named_map g m k
                       end); [|apply G, nrun_inv].
  unfold construct_all. induction ss as [|s ss IH]; intros g I0; [now exists g|]. cbn [fold_res existsb].
  destruct (construct_ok s g) as (x & -> & _). cbn [bind snd].
  destruct (register_names (si_names (init_of draw t s)) g [] [] I0) as [I1 _].
  destruct (IH _ I1) as (g' & E & N). exists g'. split; [exact E|]. intros m k. rewrite N.
  destruct (register_names (si_names (init_of draw t s)) g m k I0) as [_ ->].
  rewrite last_name_start, last_standard.
  destruct (owns s k); cbn [orb]; [destruct (existsb _ ss); destruct (standard_name m k); reflexivity|reflexivity].
Qed.

(** ** Attributes *)
Theorem standard_levels s g : exists x g', construct draw t s g = Ok (x, g') /\ xo_id x = id_of s
  /\ forall lv, map a_key (xo_level lv x) = keys_at s lv /\ Forall (fun a => a_ext a = Some (id_of s) /\ (a_cls a, a_val a) = first_value draw t (a_key a) /\ a_coll a = [] /\ a_meta a = []) (xo_level lv x).
Proof.
  destruct s; unfold construct; eexists; eexists; (split; [cbn -[py fold_left]; reflexivity|]); (split; [reflexivity|]);
    intros []; (split; [vm_compute; reflexivity|repeat constructor]).
Qed.
Lemma Some_inj {A} (a b : A) : Some a = Some b -> b = a.
Proof. congruence. Qed.
Lemma id_same e i : attr_eq false (mk_attr CID (py "identity:id") e (PXid i) [] []) (mk_attr CID (py "identity:id") e (PXid i) [] []) = true.
Proof. unfold attr_eq. cbn -[py N.eqb str_eqb]. now rewrite str_eqb_refl, N.eqb_refl. Qed.
Fixpoint dup_free (l : list pystr) : bool :=
  match l with [] => true | x :: l => negb (existsb (str_eqb x) l) && dup_free l end.
Lemma no_dups l : dup_free l = true -> NoDup l.
Proof.
  induction l as [|x l IH]; cbn [dup_free]; intros H; constructor; apply andb_prop in H.
  - intros I0. destruct H as [H _]. apply negb_true_iff in H. enough (existsb (str_eqb x) l = true) by congruence.
    apply existsb_exists. exists x. split; [exact I0|apply str_eqb_refl].
  - now apply IH.
Qed.
Theorem standard_defined s g x g' : construct draw t s g = Ok (x, g') ->
  NoDup (map a_key (snd (xo_defined x))) /\ forall k, In k (map a_key (snd (xo_defined x))) <-> exists lv, In k (keys_at s lv).
Proof.
  intros C.
  assert (E : map a_key (snd (xo_defined x)) = map fst (filter (fun r => owns s (fst r)) levels)).
  { apply (f_equal (fun r => match r with Ok p => Some (fst p) | Raise _ => None end)) in C.
    destruct s; unfold construct in C; cbn -[py fold_left] in C; apply Some_inj in C; subst x.
    3: {
    unfold xo_defined, aset_update. cbn [snd xo_all xo_log xo_trace xo_event xo_meta aset_add set_add existsb fold_left app].
    unfold aset_add, set_add. cbn [existsb app]. rewrite !id_same. cbn [orb existsb]. rewrite !id_same.
    cbn [orb existsb]. rewrite !id_same. vm_compute. reflexivity. }
    all: vm_compute; reflexivity. }
  clear C.
  rewrite E. split.
  - apply no_dups. destruct s; vm_compute; reflexivity.
  - intros k. unfold keys_at. rewrite in_map_iff. split.
    + intros (r & <- & I0). apply filter_In in I0. destruct I0 as [I0 O].
      assert (L : exists lv, existsb (same_level lv) (snd r) = true).
      { assert (A : forallb (fun r => match snd r with [] => false | _ => true end) levels = true) by reflexivity.
        rewrite forallb_forall in A. specialize (A r I0). destruct (snd r) as [|lv l]; [discriminate|]. exists lv. cbn. now destruct lv. }
      destruct L as [lv L]. exists lv. apply in_map. apply filter_In. split; [exact I0|]. now rewrite O, L.
    + intros (lv & I0). apply in_map_iff in I0. destruct I0 as (r & <- & I0). apply filter_In in I0. destruct I0 as [I0 O].
      apply andb_prop in O. exists r. split; [reflexivity|]. apply filter_In. tauto.
Qed.
Theorem standard_apart s s' lv lv' k : In k (keys_at s lv) -> In k (keys_at s' lv') -> s = s'.
Proof.
  intros A B.
  assert (Q : forall s s', s <> s' -> forallb (fun r => negb (owns s (fst r) && owns s' (fst r))) levels = true)
    by (intros [] []; intros; try reflexivity; congruence).
  assert (DS : s = s' \/ s <> s') by (destruct s, s'; (now left) || (right; discriminate)).
  destruct DS as [E|NE]; [exact E|exfalso]. specialize (Q s s' NE). rewrite forallb_forall in Q.
  unfold keys_at in A, B. apply in_map_iff in A, B. destruct A as (r & <- & A), B as (r' & E & B).
  apply filter_In in A, B. destruct A as [IA A], B as [IB B]. apply andb_prop in A, B.
  specialize (Q r IA). rewrite (proj1 A) in Q. rewrite <- E in Q. rewrite (proj1 B) in Q. discriminate.
Qed.
Theorem standard_english s lv k : In k (keys_at s lv) -> standard_name (py "EN") k <> None.
Proof.
  intros A. unfold keys_at in A. apply in_map_iff in A. destruct A as (r & <- & A). apply filter_In in A. destruct A as [A _].
  assert (Q : forallb (fun r => match standard_name (py "EN") (fst r) with Some _ => true | None => false end) levels = true) by (vm_compute; reflexivity).
  rewrite forallb_forall in Q. specialize (Q r A). now destruct (standard_name _ _).
Qed.
Theorem standard_shown ss h g' s lv k n : construct_all draw t ss (nrun h) = Ok g' -> In s ss -> In k (keys_at s lv) ->
  gm_map g' (KStr k) = standard_name (py "EN") k
  /\ forall l, sget n (g_maps g') = Some l ->
     gm_safely g' (KStr k) (MName n) = match named_map g' n k with Some a => Some a | None => standard_name (py "EN") k end.
Proof.
  intros C S K. destruct (standard_aliases ss h) as (g2 & C2 & N). rewrite C in C2. injection C2 as <-.
  pose proof (construct_all_inv ss _ _ (nrun_inv h) C) as (_ & _ & _ & EN).
  assert (M : gm_map g' (KStr k) = standard_name (py "EN") k).
  { specialize (N (py "EN") k). unfold named_map at 1 in N. rewrite EN in N. unfold gm_map. rewrite N.
    assert (O : existsb (fun s => owns s k) ss = true).
    { apply existsb_exists. exists s. split; [exact S|]. unfold keys_at in K. apply in_map_iff in K. destruct K as (r & <- & K).
      apply filter_In in K. destruct K as [_ K]. now apply andb_prop in K. }
    rewrite O. pose proof (standard_english s lv k K) as A. now destruct (standard_name (py "EN") k). }
  split; [exact M|]. intros l L. cbn [gm_safely]. unfold named_map. rewrite L. unfold gm_safely_obj. cbn [karg_key].
  destruct (gm_map_of g' l (KStr k)); [reflexivity|]. fold (gm_map g' (KStr k)). rewrite M.
  pose proof (standard_english s lv k K) as A. now destruct (standard_name (py "EN") k).
Qed.
Theorem standard_labels s lv k : In k (keys_at s lv) -> named_extension std_manager k = Some (id_of s).
Proof.
  intros A. unfold keys_at in A. apply in_map_iff in A. destruct A as (r & <- & A). apply filter_In in A. destruct A as [A O].
  apply andb_prop in O. destruct O as [O _].
  assert (Q : forallb (fun r => negb (owns s (fst r)) || match named_extension std_manager (fst r) with Some x => xext_eqb x (id_of s) | None => false end) levels = true)
    by (destruct s; vm_compute; reflexivity).
  rewrite forallb_forall in Q. specialize (Q r A). rewrite O in Q. cbn [negb orb] in Q.
  destruct (named_extension std_manager (fst r)) as [x|]; [|discriminate]. f_equal. now apply xext_same.
Qed.
End Std.
