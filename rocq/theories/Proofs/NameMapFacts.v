(** Which mappings the name map facility lists, and their texts. *)
From Coq Require Import String NArith ZArith List Bool Lia.
From Verif Require Import Base.PyBase Base.PyVal Model.Attr Model.Registry Model.NameMap Spec.Registries
  Proofs.BaseFacts Proofs.RegistryFacts.
Import ListNotations.

Lemma firsts_end h x : forall seen, firsts_from (fun k : pystr => k) seen (h ++ [x])
  = firsts_from (fun k => k) seen h ++ (if existsb (str_eqb x) seen || existsb (str_eqb x) h then [] else [x]).
Proof.
  induction h as [|y h IH]; intros seen; cbn [app firsts_from existsb].
  - rewrite orb_false_r. now destruct (existsb (str_eqb x) seen).
  - destruct (existsb (str_eqb y) seen) eqn:E.
    + rewrite IH. f_equal. destruct (str_eqb_spec x y) as [->|N]; cbn [orb]; auto. now rewrite E, orb_true_l.
    + cbn [app]. rewrite IH. f_equal. f_equal. cbn [existsb]. destruct (str_eqb x y), (existsb (str_eqb x) seen); reflexivity.
Qed.

Lemma firsts_in h x : forall seen, existsb (str_eqb x) (firsts_from (fun k : pystr => k) seen h) || existsb (str_eqb x) seen
  = existsb (str_eqb x) h || existsb (str_eqb x) seen.
Proof.
  induction h as [|y h IH]; intros seen; cbn [firsts_from existsb]; auto.
  destruct (existsb (str_eqb y) seen) eqn:E.
  - rewrite IH. destruct (str_eqb_spec x y) as [->|N]; cbn [orb]; auto. now rewrite E, orb_true_r.
  - cbn [existsb]. specialize (IH (y :: seen)). cbn [existsb] in IH.
    destruct (str_eqb x y); cbn [orb] in *; auto.
Qed.

Lemma firsts_one_more h x : firsts (fun k : pystr => k) (h ++ [x])
  = if existsb (str_eqb x) (firsts (fun k => k) h) then firsts (fun k => k) h else firsts (fun k => k) h ++ [x].
Proof.
  unfold firsts. rewrite firsts_end. assert (F := firsts_in h x []). cbn [existsb orb] in *. rewrite !orb_false_r in F. rewrite F.
  destruct (existsb (str_eqb x) h); [now rewrite app_nil_r|auto].
Qed.

Lemma smem_existsb {V} k (d : sdict V) : smem k d = existsb (str_eqb k) (map fst d).
Proof.
  apply eq_true_iff_eq. rewrite smem_in, existsb_exists. split.
  - intros I. exists k. split; auto. apply str_eqb_refl.
  - intros (y & I & E). apply str_eqb_eq in E. now subst.
Qed.
Lemma sset_keys' {V} k (v : V) d :
  map fst (sset k v d) = if existsb (str_eqb k) (map fst d) then map fst d else map fst d ++ [k].
Proof. now rewrite sset_keys, smem_existsb. Qed.
Lemma sget_existsb {V} k (d : sdict V) : existsb (str_eqb k) (map fst d) = match sget k d with Some _ => true | None => false end.
Proof.
  destruct (sget k d) as [v|] eqn:G.
  - apply sget_in, (in_map fst) in G. apply existsb_exists. exists k. split; auto. apply str_eqb_refl.
  - apply sget_none in G. destruct (existsb (str_eqb k) (map fst d)) eqn:E; auto. exfalso. apply G.
    apply existsb_exists in E as (y & I & E). apply str_eqb_eq in E. now subst.
Qed.

(** ** Names *)
Lemma get_mapping_keys g n : map fst (g_maps (fst (gm_get_mapping g n)))
  = if existsb (str_eqb n) (map fst (g_maps g)) then map fst (g_maps g) else map fst (g_maps g) ++ [n].
Proof.
  unfold gm_get_mapping. assert (E := sget_existsb n (g_maps g)). destruct (sget n (g_maps g)) eqn:G; cbn [fst g_maps].
  - now rewrite E.
  - rewrite sset_keys'. now rewrite E.
Qed.

Theorem names_listed h : gm_names (nrun h) = names_met h.
Proof.
  unfold gm_names, nrun, names_met. induction h as [|o h IH] using rev_ind; [reflexivity|].
  rewrite fold_left_app, flat_map_app. cbn [fold_left flat_map]. rewrite app_nil_r, app_comm_cons.
  set (g := fold_left nstep h gm_init) in *.
  destruct o as [m|m|l x al|m x al]; cbn [nstep names].
  - rewrite app_nil_r. exact IH.
  - rewrite firsts_one_more, get_mapping_keys, IH. reflexivity.
  - rewrite app_nil_r. exact IH.
  - rewrite firsts_one_more, <- IH, <- get_mapping_keys. unfold gm_register. now destruct (gm_get_mapping g m).
Qed.

(** ** Objects *)
Lemma available_all g : NoDup (map snd (g_maps g)) -> gm_available g = map snd (g_maps g).
Proof.
  unfold gm_available. assert (G : forall (d : sdict nat) s, NoDup (s ++ map snd d) ->
    fold_left (fun s kv => if existsb (Nat.eqb (snd kv)) s then s else s ++ [snd kv]) d s = s ++ map snd d).
  { induction d as [|[k l] d IH]; intros s N; cbn [fold_left map snd] in *; [now rewrite app_nil_r|].
    destruct (existsb (Nat.eqb l) s) eqn:E.
    - exfalso. apply existsb_exists in E as (y & I & E). apply Nat.eqb_eq in E. subst y.
      apply NoDup_remove_2 in N. apply N, in_or_app. auto.
    - rewrite IH; rewrite <- app_assoc; auto. }
  intros N. now rewrite G.
Qed.

(** Every mapping in the dictionary is an object of its name. *)
Definition map_at (g : gmaps) (n : pystr) (l : nat) : Prop := option_map nm_name (nth_error (g_heap g) l) = Some n.

Lemma register_name g l x al l' : option_map nm_name (nth_error (g_heap (gm_map_register g l x al)) l')
  = option_map nm_name (nth_error (g_heap g) l').
Proof.
  unfold gm_map_register. cbn [g_heap]. rewrite update_nth. destruct (Nat.eqb l l'); auto.
  destruct (nth_error (g_heap g) l') as [m|]; auto. cbn [option_map]. f_equal. unfold nm_register.
  destruct al; auto. now destruct (karg_key x).
Qed.
Lemma snoc_name (hp : list namemap) m l n : option_map nm_name (nth_error hp l) = Some n ->
  option_map nm_name (nth_error (hp ++ [m]) l) = Some n.
Proof.
  intros E. rewrite nth_error_app1; auto. apply nth_error_Some. destruct (nth_error hp l); discriminate.
Qed.
Lemma get_mapping_name g n : (forall m l, In (m, l) (g_maps g) -> map_at g m l) ->
  forall m l, In (m, l) (g_maps (fst (gm_get_mapping g n))) -> map_at (fst (gm_get_mapping g n)) m l.
Proof.
  intros H m l. unfold gm_get_mapping. destruct (sget n (g_maps g)) eqn:G; cbn [fst]; auto.
  unfold map_at. cbn [g_maps g_heap]. rewrite sset_new by now apply sget_none. intros I. apply in_app_or in I as [I|[E|[]]].
  - apply snoc_name, H, I.
  - injection E as <- <-. rewrite nth_error_app2, Nat.sub_diag by auto. reflexivity.
Qed.
Lemma names_right h : forall m l, In (m, l) (g_maps (nrun h)) -> map_at (nrun h) m l.
Proof.
  unfold nrun. induction h as [|o h IH] using rev_ind.
  - intros m l [E|[]]. injection E as <- <-. reflexivity.
  - rewrite fold_left_app. cbn [fold_left]. set (g := fold_left nstep h gm_init) in *.
    destruct o as [n|n|l x al|n x al]; cbn [nstep]; intros m' l'.
    + intros I. unfold map_at. cbn [g_heap]. apply snoc_name, IH, I.
    + now apply get_mapping_name.
    + unfold map_at. rewrite register_name. apply IH.
    + unfold gm_register. assert (P := get_mapping_name g n IH). destruct (gm_get_mapping g n) as [g1 l1].
      unfold map_at. rewrite register_name. apply P.
Qed.

Theorem mappings_listed h :
  NoDup (gm_available (nrun h))
  /\ Forall2 (fun n l => option_map nm_name (nth_error (g_heap (nrun h)) l) = Some n
                         /\ sget n (g_maps (nrun h)) = Some l) (gm_names (nrun h)) (gm_available (nrun h))
  /\ hd_error (gm_available (nrun h)) = Some (gm_standard (nrun h)).
Proof.
  destruct (nrun_inv h) as (W & N & L & S). rewrite available_all by auto. repeat split; auto.
  - assert (R := names_right h). unfold gm_names. unfold dict_wf in W.
    assert (G : forall d, (forall m l, In (m, l) d -> In (m, l) (g_maps (nrun h))) ->
      Forall2 (fun n l => option_map nm_name (nth_error (g_heap (nrun h)) l) = Some n /\ sget n (g_maps (nrun h)) = Some l)
        (map fst d) (map snd d)).
    { induction d as [|[k l] d IH]; intros I; cbn [map fst snd]; constructor.
      - split; [apply R, I; now left|]. apply sin_get; auto. apply I. now left.
      - apply IH. intros m' l' J. apply I. now right. }
    now apply G.
  - assert (K := names_listed h). unfold gm_names, names_met, firsts in K. cbn [firsts_from existsb] in K.
    unfold gm_standard. destruct (g_maps (nrun h)) as [|[n l] d]; [discriminate|]. cbn [map fst snd hd_error] in *.
    injection K as -> _. cbn [sget dict_get] in S. unfold sget in S. cbn [dict_get] in S. rewrite str_eqb_refl in S. now injection S as ->.
Qed.

(** ** Texts *)
Definition keys_of_call (n : pystr) (o : nop) : list pystr :=
  match o with
  | NGlobal m x (PStr _) => if str_eqb m n then match karg_key x with Some k => [k] | None => [] end else []
  | _ => []
  end.
Lemma keys_met_snoc n h o : keys_met n (h ++ [o]) = firsts (fun k => k) (flat_map (keys_of_call n) h ++ keys_of_call n o).
Proof. unfold keys_met. rewrite flat_map_app. cbn [flat_map]. rewrite app_nil_r. reflexivity. Qed.

Definition held (g : gmaps) (n : pystr) : option (sdict pystr) :=
  match sget n (g_maps g) with
  | Some l => option_map nm_map (nth_error (g_heap g) l)
  | None => None
  end.

Lemma held_get g n m : gm_inv g -> held (fst (gm_get_mapping g n)) m
  = match held g m with Some d => Some d | None => if str_eqb m n then Some [] else None end.
Proof.
  intros (W & N & L & S). unfold held, gm_get_mapping. destruct (sget n (g_maps g)) as [l|] eqn:G; cbn [fst].
  - destruct (sget m (g_maps g)) as [l'|] eqn:G'.
    + destruct (nth_error (g_heap g) l') eqn:E; auto. exfalso. apply nth_error_None in E.
      apply sget_in, (in_map snd) in G'. cbn in G'. rewrite Forall_forall in L. apply L in G'. lia.
    + destruct (str_eqb_spec m n); auto. congruence.
  - cbn [g_maps g_heap]. destruct (str_eqb_spec m n) as [->|D].
    + rewrite sget_sset_same, G, nth_error_app2, Nat.sub_diag by auto. reflexivity.
    + rewrite sget_sset_other by auto. destruct (sget m (g_maps g)) as [l'|] eqn:G'; auto.
      apply sget_in, (in_map snd) in G'. cbn in G'. rewrite Forall_forall in L. apply L in G'.
      rewrite nth_error_app1 by auto. destruct (nth_error (g_heap g) l') eqn:E; [reflexivity|]. exfalso. apply nth_error_None in E. lia.
Qed.

Lemma snd_once (d : sdict nat) n m l : NoDup (map snd d) -> In (n, l) d -> In (m, l) d -> n = m.
Proof.
  induction d as [|[a b] t IH]; simpl; [tauto|].
  intros ND [E1|I1] [E2|I2]; inversion ND; subst; try congruence; auto.
  - injection E1 as -> ->. exfalso. apply H1. apply in_map_iff. exists (m, l). auto.
  - injection E2 as -> ->. exfalso. apply H1. apply in_map_iff. exists (n, l). auto.
Qed.

Lemma held_register g n l x al m : gm_inv g -> sget n (g_maps g) = Some l ->
  held (gm_map_register g l x al) m
  = match al, karg_key x with
    | PStr s, Some k => if str_eqb n m then option_map (sset k s) (held g m) else held g m
    | _, _ => held g m
    end.
Proof.
  intros (W & N & L & S) G. unfold held, gm_map_register. cbn [g_maps g_heap].
  destruct (str_eqb_spec n m) as [<-|D].
  - rewrite G, update_nth, Nat.eqb_refl. destruct (nth_error (g_heap g) l) as [mm|]; cbn [option_map].
    + unfold nm_register. destruct al; auto. now destruct (karg_key x).
    + destruct al; auto. now destruct (karg_key x).
  - destruct (sget m (g_maps g)) as [l'|] eqn:G'.
    + rewrite update_nth. destruct (Nat.eqb_spec l l') as [<-|].
      * exfalso. apply D. apply sget_in in G, G'. eapply snd_once; eauto.
      * destruct al; auto. now destruct (karg_key x).
    + destruct al; auto. now destruct (karg_key x).
Qed.

Lemma held_keys h : forallb global_call h = true -> forall n,
  match held (nrun h) n with
  | Some d => map fst d = keys_met n h /\ dict_wf d
  | None => keys_met n h = []
  end.
Proof.
  unfold nrun. induction h as [|o h IH] using rev_ind; intros H n.
  - unfold held. cbn [fold_left gm_init g_maps g_heap]. unfold sget. cbn [dict_get].
    destruct (str_eqb n (py "EN")); cbn; auto. split; auto. constructor.
  - rewrite forallb_app in H. apply andb_true_iff in H as [H1 H2]. cbn in H2. rewrite andb_true_r in H2.
    specialize (IH H1). rewrite fold_left_app. cbn [fold_left]. rewrite keys_met_snoc.
    assert (I := nrun_inv h). unfold nrun in I. set (g := fold_left nstep h gm_init) in *.
    assert (B : match held (fst (gm_get_mapping g n)) n with
                | Some d => map fst d = keys_met n h /\ dict_wf d | None => False end).
    { rewrite held_get, str_eqb_refl by auto. specialize (IH n). destruct (held g n); auto. split; [now rewrite IH|constructor]. }
    destruct o as [m|m|l x al|m x al]; try discriminate; cbn [nstep].
    + cbn [keys_of_call]. rewrite app_nil_r. change (firsts _ _) with (keys_met n h).
      rewrite held_get by auto. specialize (IH n). destruct (held g n); auto. destruct (str_eqb n m); auto. split; auto. constructor.
    + unfold gm_register. destruct (gm_get_inv g m I) as (J & Sm & Lm).
      assert (Hm := fun q => held_get g m q I). destruct (gm_get_mapping g m) as [g1 l1] eqn:GM. cbn [fst snd] in *.
      rewrite (held_register g1 m l1 x al n J Sm). rewrite Hm.
      assert (K0 : match match held g n with Some d => Some d | None => if str_eqb n m then Some [] else None end with
                   | Some d => map fst d = keys_met n h /\ dict_wf d
                   | None => keys_met n h = [] end).
      { specialize (IH n). destruct (held g n); auto. destruct (str_eqb n m); auto. split; auto. constructor. }
      assert (Same : firsts (fun k => k) (flat_map (keys_of_call n) h) = keys_met n h) by reflexivity.
      destruct al; cbn [keys_of_call]; rewrite ?app_nil_r, ?Same; auto.
      destruct (str_eqb_spec m n) as [->|D].
      * destruct (karg_key x) as [k|]; rewrite ?app_nil_r, ?Same; auto.
        rewrite str_eqb_refl in *. rewrite firsts_one_more, Same.
        destruct (held g n) as [d|]; cbn [option_map] in *.
        -- destruct K0 as [<- W0]. split; [apply sset_keys'|]. now apply sset_wf.
        -- destruct K0 as [<- W0]. split; auto. repeat constructor. intros [].
      * rewrite app_nil_r, Same. destruct (karg_key x); auto.
Qed.

Lemma pairs_of (d : sdict pystr) (f : pystr -> option pystr) : dict_wf d -> (forall k, sget k d = f k) ->
  forall c, flat_map (fun kv : pystr * pystr => c (fst kv) (snd kv)) d
  = flat_map (fun k => c k match f k with Some al => al | None => [] end) (map fst d) :> pystr.
Proof.
  intros W F c. assert (G : forall e, (forall kv, In kv e -> In kv d) ->
    flat_map (fun kv : pystr * pystr => c (fst kv) (snd kv)) e
    = flat_map (fun k => c k match f k with Some al => al | None => [] end) (map fst e) :> pystr).
  { induction e as [|[k v] e IH]; intros I; cbn [flat_map map fst snd]; auto. rewrite IH by (intros; apply I; now right).
    f_equal. rewrite <- F. rewrite (sin_get k v d W (I _ (or_introl eq_refl))). reflexivity. }
  now apply G.
Qed.

Lemma map_text_at h n l m : forallb global_call h = true -> In (n, l) (g_maps (nrun h)) ->
  nth_error (g_heap (nrun h)) l = Some m -> nm_str m = map_text n h.
Proof.
  intros H I E. destruct (nrun_inv h) as (W & N & L & S). assert (G := sin_get n l _ W I).
  assert (Nm := names_right h n l I). unfold map_at in Nm. rewrite E in Nm. injection Nm as Nm.
  assert (K := held_keys h H n). unfold held in K. rewrite G, E in K. cbn [option_map] in K. destruct K as [K Wd].
  unfold nm_str, map_text. rewrite Nm. f_equal. f_equal. rewrite <- K.
  apply (pairs_of (nm_map m) (fun k => last_alias n k h) Wd) with (c := fun k al => [10%N] ++ k ++ py " -> " ++ al).
  intros k. rewrite <- names_last_alias by auto. unfold named_map. rewrite G. unfold gm_map_of. now rewrite E.
Qed.

Theorem texts_shown h : forallb global_call h = true ->
  (forall n l m, sget n (g_maps (nrun h)) = Some l -> nth_error (g_heap (nrun h)) l = Some m -> nm_str m = map_text n h)
  /\ gm_str (nrun h) = py "Global attribute name map." ++ [10; 10]%N ++ py "Contained maps:" ++ [10; 10]%N
       ++ flat_map (fun n => map_text n h ++ [10; 10]%N) (names_met h).
Proof.
  intros H. split.
  - intros n l m G E. eapply map_text_at; eauto. now apply sget_in.
  - unfold gm_str. do 4 f_equal. rewrite <- names_listed. unfold gm_names.
    assert (G : forall d, (forall kv, In kv d -> In kv (g_maps (nrun h))) ->
      flat_map (fun kv => match nth_error (g_heap (nrun h)) (snd kv) with
                          | Some m => nm_str m ++ [10; 10]%N | None => [] end) d
      = flat_map (fun n => map_text n h ++ [10; 10]%N) (map fst d)).
    { induction d as [|[n l] d IH]; intros I; cbn [flat_map map fst snd]; auto.
      rewrite IH by (intros; apply I; now right). f_equal.
      assert (J : In (n, l) (g_maps (nrun h))) by (apply I; now left).
      assert (Nm := names_right h n l J). unfold map_at in Nm. destruct (nth_error (g_heap (nrun h)) l) eqn:E; [|discriminate].
      f_equal. eapply map_text_at; eauto. }
    now apply G.
Qed.
