(** The text of a net tells what the net is. *)
From Coq Require Import String NArith ZArith List Bool Arith Lia Permutation.
From Verif Require Import Base.PyBase Base.Codec Model.Alpha Model.Files Model.NetFile Spec.AlphaNet Spec.Mining Spec.NetFile
  Spec.OnDisk Spec.DateText Proofs.BaseFacts Proofs.AlphaFacts Proofs.XesWrittenFacts Proofs.SameFileFacts
  Spec.Replay Proofs.ReplayFacts.
Import ListNotations.

(** ** Reading up to a quotation mark *)

Lemma up_to (q : N) x y r r' : ~ In q x -> ~ In q y -> x ++ q :: r = y ++ q :: r' -> x = y /\ r = r'.
Proof.
  revert y. induction x as [|c x IH]; intros [|d y] X Y H; cbn in H.
  - now injection H.
  - injection H as -> _. destruct Y. now left.
  - injection H as <- _. destruct X. now left.
  - injection H as -> H. destruct (IH y) as [-> ->]; auto; [intros K; apply X; now right|intros K; apply Y; now right].
Qed.

Lemma print_N_nat_inj m n : print_N (N.of_nat m) = print_N (N.of_nat n) -> m = n.
Proof.
  intros H. assert (E : print_Z (Z.of_nat m) = print_Z (Z.of_nat n)).
  { destruct m, n; cbn in *; exact H. }
  apply print_Z_inj in E. lia.
Qed.
Lemma print_N_unquoted n : ~ In 34%N (print_N n).
Proof.
  destruct (print_N_digits n) as (ds & _ & F & _ & _ & ->). intros I. apply in_map_iff in I as (d & E & I).
  rewrite Forall_forall in F. apply F in I. unfold digit in E. lia.
Qed.
Lemma name_unquoted n : ~ In 34%N (name_of n).
Proof.
  unfold name_of. rewrite in_app_iff. intros [I|I]; [|now apply print_N_unquoted in I].
  cbn in I. intuition discriminate.
Qed.
Lemma name_inj m n : name_of m = name_of n -> m = n.
Proof. unfold name_of. intros H. apply app_inv_head in H. now apply print_N_nat_inj. Qed.

Lemma drop1 (a : N) x y : a :: x = a :: y -> x = y.
Proof. intros H. now injection H. Qed.
Lemma quote_char : py """" = [34%N].
Proof. reflexivity. Qed.

(** ** The items of a text *)

Inductive item : Type := IPlace (n : nat) | ITrans (n : nat) (e : pystr) (l m : list nat).
Definition show (i : item) : pystr :=
  match i with
  | IPlace n => py "Place """ ++ name_of n ++ py """" ++ (if Nat.eqb n 0 then py " init 1" else []) ++ py ";"
  | ITrans n e l m => py "trans ""t_" ++ print_N (N.of_nat n) ++ py """~""" ++ e ++ py "+complete"" in "
                      ++ names l ++ py " out " ++ names m ++ py " ;"
  end.
Definition readable_item (i : item) : Prop :=
  match i with IPlace _ => True | ITrans _ e _ _ => ~ In 34%N e end.

Definition rest_names (l : list nat) : pystr := flat_map (fun n => py " """ ++ name_of n ++ py """") l.
Lemma names_cons n l : names (n :: l) = 34%N :: name_of n ++ 34%N :: rest_names l.
Proof.
  unfold names. revert n. induction l as [|k l IH]; intros n.
  - cbn [map join rest_names flat_map]. now rewrite quote_char.
  - specialize (IH k). set (f := fun n => _) in *. cbn [map] in *.
    transitivity (f n ++ py " " ++ join (py " ") (f k :: map f l)); [reflexivity|]. rewrite IH.
    unfold f. rewrite quote_char. cbn [rest_names flat_map]. fold (rest_names l).
    rewrite <- !app_assoc. reflexivity.
Qed.

(** [c] follows the names and a blank; it is no quotation mark. *)
Lemma rest_cancel c r r' : c <> 34%N -> forall l l',
  rest_names l ++ 32%N :: c :: r = rest_names l' ++ 32%N :: c :: r' -> l = l' /\ r = r'.
Proof.
  intros C. induction l as [|n l IH]; intros [|n' l'] H.
  - cbn in H. injection H as H. auto.
  - cbn in H. injection H as H _. congruence.
  - cbn in H. injection H as H _. congruence.
  - cbn [rest_names flat_map] in H. fold (rest_names l) (rest_names l') in H.
    change (py " """) with [32%N; 34%N] in H. rewrite quote_char in H. rewrite <- !app_assoc in H. cbn [app] in H.
    apply drop1, drop1 in H. apply up_to in H; [|apply name_unquoted|apply name_unquoted]. destruct H as [E H].
    apply name_inj in E. apply IH in H. destruct H as [-> ->]. now subst.
Qed.
Lemma names_cancel c r r' : c <> 34%N -> forall l l',
  names l ++ 32%N :: c :: r = names l' ++ 32%N :: c :: r' -> l = l' /\ r = r'.
Proof.
  intros C l l' H. destruct l as [|n l], l' as [|n' l']; rewrite ?names_cons in H.
  - cbn in H. injection H as H. auto.
  - cbn in H. discriminate.
  - cbn in H. discriminate.
  - cbn [app] in H. rewrite <- !app_assoc in H. cbn [app] in H.
    apply drop1 in H. apply up_to in H; [|apply name_unquoted|apply name_unquoted]. destruct H as [E H].
    apply name_inj in E. apply rest_cancel in H; [|exact C]. destruct H as [-> ->]. now subst.
Qed.

Lemma show_cancel i j r r' : readable_item i -> readable_item j -> show i ++ r = show j ++ r' -> i = j /\ r = r'.
Proof.
  destruct i as [n|n e l m], j as [n'|n' e' l' m']; intros R R' H; cbn [show] in H; try (cbn in H; discriminate).
  - rewrite quote_char in H. rewrite <- !app_assoc in H. apply app_inv_head in H. cbn [app] in H.
    apply up_to in H; [|apply name_unquoted|apply name_unquoted]. destruct H as [E H]. apply name_inj in E. subst n'.
    apply app_inv_head, app_inv_head in H. auto.
  - rewrite <- !app_assoc in H. apply app_inv_head in H.
    change (py """~""") with [34%N; 126%N; 34%N] in H. cbn [app] in H.
    apply up_to in H; [|apply print_N_unquoted|apply print_N_unquoted]. destruct H as [E H].
    apply print_N_nat_inj in E. subst n'. apply drop1, drop1 in H.
    change (py "+complete"" in ") with (py "+complete" ++ 34%N :: py " in ") in H.
    assert (U : forall x, ~ In 34%N x -> ~ In 34%N (x ++ py "+complete")).
    { intros x X I. apply in_app_iff in I. destruct I as [I|I]; [auto|]. cbn in I. intuition discriminate. }
    rewrite <- !app_assoc in H. rewrite !app_assoc in H. rewrite <- !(app_assoc (_ ++ py "+complete")) in H. cbn [app] in H.
    apply up_to in H; [|now apply U|now apply U]. destruct H as [E H]. apply app_inv_tail in E. subst e'.
    rewrite <- ?app_assoc in H. apply app_inv_head in H.
    change (py " out ") with (32%N :: 111%N :: py "ut ") in H. cbn [app] in H.
    apply names_cancel in H; [|discriminate]. destruct H as [-> H].
    change (py " ;") with [32%N; 59%N] in H. apply app_inv_head in H. cbn [app] in H.
    apply names_cancel in H; [|discriminate]. destruct H as [-> ->]. auto.
Qed.

Lemma join_cons a b l : join [10%N] (a :: b :: l) = a ++ 10%N :: join [10%N] (b :: l).
Proof. reflexivity. Qed.
Lemma show_nonempty i : show i <> [].
Proof. destruct i; discriminate. Qed.
Lemma items_inj L : forall L', Forall readable_item L -> Forall readable_item L' ->
  join [10%N] (map show L) = join [10%N] (map show L') -> L = L'.
Proof.
  assert (Z : forall i L, join [10%N] (map show (i :: L)) <> []).
  { intros i [|k M]; cbn [map]; [apply show_nonempty|]. rewrite join_cons.
    intros H. apply app_eq_nil in H as [H _]. now apply show_nonempty in H. }
  induction L as [|i L IH]; intros [|j L'] F F' H; try reflexivity.
  - symmetry in H. now apply Z in H.
  - now apply Z in H.
  - inversion F; subst. inversion F'; subst.
    destruct L as [|k L], L' as [|k' L']; cbn [map] in H; rewrite ?join_cons in H.
    + cbn [join] in H. rewrite <- (app_nil_r (show i)), <- (app_nil_r (show j)) in H.
      apply show_cancel in H; auto. now destruct H as [-> _].
    + cbn [join] in H. rewrite <- (app_nil_r (show i)) in H. apply show_cancel in H; auto. now destruct H as [_ H].
    + cbn [join] in H. rewrite <- (app_nil_r (show j)) in H. apply show_cancel in H; auto. now destruct H as [_ H].
    + apply show_cancel in H; auto. destruct H as [-> H]. apply drop1 in H. f_equal. now apply IH.
Qed.

(** ** Nets *)

Section Net.
Variables (starting ending : list pystr) (order : list (list pystr * list pystr)).
Fixpoint trans_items (n : nat) (events : list pystr) : list item :=
  match events with
  | [] => []
  | e :: t => ITrans n e (places_with e (consumers starting order)) (places_with e (producers ending order))
              :: trans_items (S n) t
  end.
Definition net_items (events : list pystr) : list item :=
  map IPlace (seq 0 (2 + List.length order)) ++ trans_items (3 + List.length order) events.
Lemma net_text_items events : net_text starting ending order events = join [10%N] (map show (net_items events)).
Proof.
  unfold net_text, net_items. f_equal. rewrite map_app, map_map. f_equal.
  - generalize (3 + List.length order). induction events as [|e t IH]; intros n; [reflexivity|].
    cbn [net_transitions trans_items map]. now rewrite IH.
Qed.
Lemma net_items_readable events : (forall e, In e events -> ~ In 34%N e) -> Forall readable_item (net_items events).
Proof.
  intros U. apply Forall_app. split.
  - apply Forall_map, Forall_forall. easy.
  - generalize (3 + List.length order). induction events as [|e t IH]; intros n; constructor.
    + apply U. now left.
    + apply IH. intros x I. apply U. now right.
Qed.
End Net.

Lemma items_places s e o ev s' e' o' ev' : net_items s e o ev = net_items s' e' o' ev' -> List.length o = List.length o'.
Proof.
  intros H. assert (G : forall s e o ev,
    List.length (filter (fun i => match i with IPlace _ => true | _ => false end) (net_items s e o ev)) = 2 + List.length o).
  { clear. intros s e o ev. unfold net_items. rewrite filter_app, app_length.
    replace (filter _ (trans_items _ _ _ _ _)) with (@nil item).
    - cbn [List.length]. rewrite Nat.add_0_r. rewrite <- (seq_length (2 + List.length o) 0) at 2.
      induction (seq 0 (2 + List.length o)) as [|k l IH]; cbn; congruence.
    - generalize (3 + List.length o). induction ev as [|x t IH]; intros n; [reflexivity|]. cbn. apply IH. }
  assert (A := G s e o ev). rewrite H, G in A. lia.
Qed.

Lemma filter_seq_ext (f g : nat -> bool) n : filter f (seq 0 n) = filter g (seq 0 n) -> forall k, k < n -> f k = g k.
Proof.
  intros H k L. assert (I : In k (filter f (seq 0 n)) <-> In k (filter g (seq 0 n))) by now rewrite H.
  rewrite !filter_In, in_seq in I. destruct (f k), (g k); try reflexivity; exfalso.
  - enough (false = true) by discriminate. apply I. split; [lia|reflexivity].
  - enough (false = true) by discriminate. apply I. split; [lia|reflexivity].
Qed.
Lemma items_trans s e o s' e' o' ev : forall n ev', List.length o = List.length o' ->
  trans_items s e o n ev = trans_items s' e' o' n ev' ->
  ev = ev' /\ forall x, In x ev ->
    places_with x (consumers s o) = places_with x (consumers s' o')
    /\ places_with x (producers e o) = places_with x (producers e' o').
Proof.
  induction ev as [|x ev IH]; intros n [|x' ev'] L H; cbn in H; try discriminate.
  - split; [reflexivity|easy].
  - injection H as <- C P H. apply IH in H as [<- H]; [|exact L]. split; [reflexivity|].
    intros y [<-|I]; [|now apply H]. split; assumption.
Qed.

Lemma sides_same ev (S1 S2 : list (list pystr)) : List.length S1 = List.length S2 ->
  (forall x, In x ev -> places_with x S1 = places_with x S2) ->
  (forall A x, In A S1 \/ In A S2 -> In x A -> In x ev) ->
  forall n, n < List.length S1 -> same_set (nth n S1 []) (nth n S2 []).
Proof.
  intros L H U n K x.
  assert (E : In x ev -> is_in x (nth n S1 []) = is_in x (nth n S2 [])).
  { intros I. apply H in I. unfold places_with in I. rewrite <- L in I. exact (filter_seq_ext _ _ _ I n K). }
  split; intros I.
  - apply is_in_In. rewrite <- E; [now apply is_in_In|]. apply (U (nth n S1 [])); [left; now apply nth_In|exact I].
  - apply is_in_In. rewrite E; [now apply is_in_In|]. apply (U (nth n S2 [])); [right; apply nth_In; lia|exact I].
Qed.

Definition inside (s e : list pystr) (o : list (list pystr * list pystr)) (ev : list pystr) : Prop :=
  incl s ev /\ incl e ev /\ forall A B, In (A, B) o -> incl A ev /\ incl B ev.

Lemma net_text_tells s e o ev s' e' o' ev' :
  (forall x, In x ev -> ~ In 34%N x) -> (forall x, In x ev' -> ~ In 34%N x) ->
  inside s e o ev -> inside s' e' o' ev' ->
  net_text s e o ev = net_text s' e' o' ev' ->
  ev = ev' /\ same_set s s' /\ same_set e e'
  /\ Forall2 (fun p q => same_set (fst p) (fst q) /\ same_set (snd p) (snd q)) o o'.
Proof.
  intros U U' (I1 & I2 & I3) (J1 & J2 & J3) H. rewrite !net_text_items in H.
  apply items_inj in H; [|now apply net_items_readable|now apply net_items_readable].
  assert (L := items_places _ _ _ _ _ _ _ _ H). unfold net_items in H. rewrite L in H. apply app_inv_head in H.
  apply items_trans in H as [<- H]; [|exact L].
  assert (C : forall n, n < List.length (consumers s o) -> same_set (nth n (consumers s o) []) (nth n (consumers s' o') [])).
  { apply (sides_same ev).
    - unfold consumers. cbn. now rewrite !map_length, L.
    - intros x I. now apply H.
    - unfold consumers. intros A x [[<-|[<-|I]]|[<-|[<-|I]]] X; auto; try easy;
        apply in_map_iff in I as ([A' B'] & <- & I); cbn in X.
      + destruct (I3 _ _ I); auto.
      + destruct (J3 _ _ I); auto. }
  assert (P : forall n, n < List.length (producers e o) -> same_set (nth n (producers e o) []) (nth n (producers e' o') [])).
  { apply (sides_same ev).
    - unfold producers. cbn. now rewrite !map_length, L.
    - intros x I. now apply H.
    - unfold producers. intros A x [[<-|[<-|I]]|[<-|[<-|I]]] X; auto; try easy;
        apply in_map_iff in I as ([A' B'] & <- & I); cbn in X.
      + destruct (I3 _ _ I); auto.
      + destruct (J3 _ _ I); auto. }
  split; [reflexivity|]. split; [apply (C 0); cbn; lia|]. split; [apply (P 1); cbn; lia|].
  assert (C' : forall n, n < List.length o -> same_set (nth n (map snd o) []) (nth n (map snd o') [])).
  { intros n K. apply (C (S (S n))). unfold consumers. cbn. rewrite map_length. lia. }
  assert (P' : forall n, n < List.length o -> same_set (nth n (map fst o) []) (nth n (map fst o') [])).
  { intros n K. apply (P (S (S n))). unfold producers. cbn. rewrite map_length. lia. }
  clear - L C' P'. revert o' L C' P'. induction o as [|p o IH]; intros [|q o'] L C P; try discriminate; constructor.
  - split; [apply (P 0)|apply (C 0)]; cbn; lia.
  - apply IH; [cbn in L; lia| |]; intros n K; [apply (C (S n))|apply (P (S n))]; cbn; lia.
Qed.

Lemma forall2_pairs o o' : Forall2 (fun p q => same_set (fst p) (fst q) /\ same_set (snd p) (snd q)) o o' ->
  same_pairs o o'.
Proof.
  intros F. unfold same_pairs. split; [|split].
  - intros A B I. induction F as [|p q o o' [E1 E2] F IH]; [easy|]. destruct I as [->|I].
    + exists (fst q), (snd q). split; [left; now destruct q|]. auto.
    + destruct (IH I) as (C & D & J & E). exists C, D. split; [now right|exact E].
  - intros A B I. induction F as [|p q o o' [E1 E2] F IH]; [easy|]. destruct I as [->|I].
    + exists (fst p), (snd p). split; [left; now destruct p|]. cbn in E1, E2. split; intros x; [symmetry; apply E1|symmetry; apply E2].
    + destruct (IH I) as (C & D & J & E). exists C, D. split; [now right|exact E].
  - induction F; cbn; congruence.
Qed.
Lemma same_pairs_perm o o' P Q : Permutation o P -> Permutation o' Q -> same_pairs o o' -> same_pairs P Q.
Proof.
  intros HP HQ (F & G & L). split; [|split].
  - intros A B I. apply (Permutation_in _ (Permutation_sym HP)) in I. destruct (F _ _ I) as (C & D & J & E).
    exists C, D. split; [now apply (Permutation_in _ HQ)|exact E].
  - intros A B I. apply (Permutation_in _ (Permutation_sym HQ)) in I. destruct (G _ _ I) as (C & D & J & E).
    exists C, D. split; [now apply (Permutation_in _ HP)|exact E].
  - now rewrite <- (Permutation_length HP), <- (Permutation_length HQ).
Qed.

Lemma mined_text (SO : SetOrder) log a : alpha_of log = Ok a ->
  exists order events, Permutation order (al_places a) /\ Permutation events (al_all a)
    /\ al_text a = net_text (al_starting a) (al_ending a) order events
    /\ inside (al_starting a) (al_ending a) order events.
Proof.
  intros H. unfold alpha_of in H. destruct (extract_events log) as [[[s e] all] |] eqn:E; [| discriminate].
  injection H as <-. apply extract_ok in E. destruct E as (S & En & O & N & _).
  cbn [al_places al_all al_text al_starting al_ending].
  exists (iter (generate_places (build_pairs all (footprint_of all log)))), (iter all).
  split; [apply iter_perm|]. split; [apply iter_perm|].
  assert (Pr : forall A B, In (A, B) (generate_places (build_pairs all (footprint_of all log))) -> pair_of_sets log A B).
  { intros A B K. apply places_In in K. destruct K as [K _]. now apply (pairs_In log all O) in K. }
  split.
  - apply text_ok. intros [A B] K x X Y. apply Pr in K. destruct K as (_ & _ & _ & _ & U1 & U2 & C). cbn in X, Y.
    destruct (C x x X Y) as [F _]. exact (U1 x x X X F).
  - split; [|split].
    + intros x I. apply iter_In, O. apply S in I as (t & I). exists (x :: t). split; [exact I|now left].
    + intros x I. apply iter_In, O. apply En in I as (t & I). exists (t ++ [x]). split; [exact I|].
      apply in_app_iff. right. now left.
    + intros A B I. apply iter_In, Pr in I. destruct I as (_ & _ & A1 & B1 & _).
      split; intros x X; apply iter_In, O; auto.
Qed.

Lemma text_tells (SO SO' : SetOrder) u v a b :
  @alpha_of SO u = Ok a -> @alpha_of SO' v = Ok b -> unquoted a -> unquoted b ->
  net_str a = net_str b -> drawn_alike a b.
Proof.
  intros A B U V H. unfold net_str in H. destruct (mined_text SO u a A) as (o & ev & P & E & T & I).
  destruct (mined_text SO' v b B) as (o' & ev' & P' & E' & T' & I'). rewrite T, T' in H.
  apply net_text_tells in H; auto.
  - destruct H as (<- & S1 & S2 & F). split; [|split; [exact S1|split; [exact S2|]]].
    + intros x. split; intros X.
      * apply (Permutation_in _ E'), (Permutation_in _ (Permutation_sym E)), X.
      * apply (Permutation_in _ E), (Permutation_in _ (Permutation_sym E')), X.
    + apply (same_pairs_perm _ _ _ _ P P'), forall2_pairs, F.
  - intros x X. apply U, (Permutation_in _ E), X.
  - intros x X. apply V, (Permutation_in _ E'), X.
Qed.

(** ** Files *)

Lemma saved_net loc a name d :
  let path := name ++ py ".tpn" in
  only_at path d (fst (save_net loc a name d))
  /\ match snd (save_net loc a name d) with
     | Ok _ => exists b, sget path (fst (save_net loc a name d)) = Some b /\ cd_enc loc (net_str a) = Some b
     | Raise x => x = UnicodeError /\ cd_enc loc (net_str a) = None
                  /\ sget path (fst (save_net loc a name d)) = Some []
     end.
Proof.
  cbn zeta. unfold save_net, net_str. destruct (cd_enc loc (al_text a)) as [b|]; cbn.
  - split; [intros q Q; apply sget_sset_other; congruence|]. exists b. split; [apply sget_sset_same|reflexivity].
  - split; [intros q Q; apply sget_sset_other; congruence|]. split; [reflexivity|]. split; [reflexivity|apply sget_sset_same].
Qed.

(** ** What nets that are drawn alike can replay *)

Lemma balanced_ext A B C D t : same_set A C -> same_set B D -> balanced C D t -> balanced A B t.
Proof.
  intros EA EB (H & E). split.
  - intros x y T. rewrite (among_ext _ _ _ EA), (among_ext _ _ _ EB). now apply (H x y).
  - now rewrite (among_ext _ _ _ EA), (among_ext _ _ _ EB).
Qed.
Lemma same_set_trans A B C : same_set A B -> same_set B C -> same_set A C.
Proof. intros H K x. now rewrite (H x). Qed.
Lemma once_ext (P Q : pystr -> Prop) A B t : (forall x, In x A <-> P x) -> (forall x, In x B <-> Q x) ->
  same_set A B -> once P t -> once Q t.
Proof.
  intros HP HQ E O. apply (once_among Q B t HQ). rewrite <- (among_ext _ _ _ E). now apply (once_among P A t HP).
Qed.

Lemma alike_replay (SO SO' : SetOrder) u v a b o o' t : @alpha_of SO u = Ok a -> @alpha_of SO' v = Ok b ->
  Permutation o (al_places a) -> Permutation o' (al_places b) -> drawn_alike a b ->
  replays (al_starting a) (al_ending a) o (al_all a) t -> replays (al_starting b) (al_ending b) o' (al_all b) t.
Proof.
  intros A B P Q (E1 & E2 & E3 & (F & G & _)) H.
  apply (@replays_iff SO u a A o P) in H. apply (@replays_iff SO' v b B o' Q).
  destruct H as (H1 & H2 & H3 & H4).
  destruct (@sets_ok SO u a A) as (S1 & S2 & S3 & _). destruct (@sets_ok SO' v b B) as (T1 & T2 & T3 & _).
  split; [|split; [|split]].
  - intros x X. apply T3, E1, S3, H1, X.
  - exact (once_ext _ _ _ _ _ S1 T1 E2 H2).
  - exact (once_ext _ _ _ _ _ S2 T2 E3 H3).
  - intros X Y M. destruct (@maximal_place SO' v b B X Y M) as (C & D & I & EX & EY).
    destruct (G _ _ I) as (C' & D' & J & EC & ED).
    apply (balanced_ext X Y C' D'); [now apply (same_set_trans _ C)|now apply (same_set_trans _ D)|].
    apply H4. exact (@place_maximal SO u a A C' D' J).
Qed.
Lemma drawn_alike_sym a b : drawn_alike a b -> drawn_alike b a.
Proof.
  intros (E1 & E2 & E3 & F & G & L). repeat split; try (now intros; apply E1 || apply E2 || apply E3); auto;
    now apply E1 + now apply E2 + now apply E3.
Qed.
Lemma text_replay (SO SO' : SetOrder) u v a b o o' : @alpha_of SO u = Ok a -> @alpha_of SO' v = Ok b ->
  Permutation o (al_places a) -> Permutation o' (al_places b) -> unquoted a -> unquoted b -> net_str a = net_str b ->
  forall t, replays (al_starting a) (al_ending a) o (al_all a) t <-> replays (al_starting b) (al_ending b) o' (al_all b) t.
Proof.
  intros A B P Q U V H t. assert (E := text_tells SO SO' u v a b A B U V H). split.
  - exact (alike_replay SO SO' u v a b o o' t A B P Q E).
  - exact (alike_replay SO' SO v u b a o' o t B A Q P (drawn_alike_sym _ _ E)).
Qed.
Lemma saved_alike (SO SO' : SetOrder) loc u v a b m n d e d' e' o o' : lawful loc ->
  @alpha_of SO u = Ok a -> @alpha_of SO' v = Ok b -> unquoted a -> unquoted b ->
  Permutation o (al_places a) -> Permutation o' (al_places b) ->
  save_net loc a m d = (d', Ok tt) -> save_net loc b n e = (e', Ok tt) ->
  sget (m ++ py ".tpn") d' = sget (n ++ py ".tpn") e' ->
  drawn_alike a b
  /\ forall t, replays (al_starting a) (al_ending a) o (al_all a) t
               <-> replays (al_starting b) (al_ending b) o' (al_all b) t.
Proof.
  intros L A B U V P Q S T E.
  assert (H : net_str a = net_str b).
  { destruct (saved_net loc a m d) as [_ X]. destruct (saved_net loc b n e) as [_ Y].
    cbv zeta in X, Y. rewrite S in X. rewrite T in Y. cbn [fst snd] in X, Y. destruct X as (x & X1 & X2). destruct Y as (y & Y1 & Y2).
    assert (x = y) as <- by congruence. apply L in X2, Y2. congruence. }
  split; [exact (text_tells SO SO' u v a b A B U V H)|exact (text_replay SO SO' u v a b o o' A B P Q U V H)].
Qed.
