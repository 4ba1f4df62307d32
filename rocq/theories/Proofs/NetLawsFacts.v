(** Swapping, inserting and exchanging activities in replayed traces. *)
From Coq Require Import String NArith List Bool Arith Lia Permutation.
From Verif Require Import Base.PyBase Model.Alpha Spec.AlphaNet Spec.Replay Spec.NetLaws Proofs.BaseFacts Proofs.AlphaFacts
  Proofs.ReplayFacts Props.P_Alpha.
Import ListNotations.

Definition bit (A : list pystr) (x : pystr) : nat := if is_in x A then 1 else 0.
Lemma among_c A x t : among A (x :: t) = bit A x + among A t.
Proof. unfold among, bit. cbn. now destruct (is_in x A). Qed.
Lemma among_a A s t : among A (s ++ t) = among A s + among A t.
Proof. unfold among. now rewrite filter_app, app_length. Qed.
Lemma bit_in A x : bit A x = 1 <-> In x A.
Proof. unfold bit. rewrite <- is_in_In. destruct (is_in x A); split; congruence. Qed.
Lemma bit_out A x : ~ In x A -> bit A x = 0.
Proof. intros H. unfold bit. destruct (is_in x A) eqn:E; [|reflexivity]. apply is_in_In in E. contradiction. Qed.

(** A prefix of a trace with a piece in the middle. *)
Lemma prefixes (u m v p q : list pystr) : u ++ m ++ v = p ++ q ->
  (exists r, u = p ++ r) \/ (exists r r', m = r ++ r' /\ p = u ++ r) \/ (exists r r', v = r ++ r' /\ p = u ++ m ++ r).
Proof.
  intros H. apply app_eq_app in H. destruct H as (l & [(-> & _)|(-> & H)]); [left; now exists l|].
  apply app_eq_app in H. destruct H as (k & [(-> & ->)|(-> & ->)]).
  - right. left. now exists l, k.
  - right. right. exists k, q. split; [reflexivity|]. now rewrite ?app_assoc.
Qed.

(** To be balanced, where the middle is looked at by itself. *)
Lemma balanced_mid A B u m v : balanced A B (u ++ m ++ v) <->
  (forall r r', u = r ++ r' -> among B r <= among A r)
  /\ (forall r r', m = r ++ r' -> among B u + among B r <= among A u + among A r)
  /\ (forall r r', v = r ++ r' -> among B u + among B m + among B r <= among A u + among A m + among A r)
  /\ among B u + among B m + among B v = among A u + among A m + among A v.
Proof.
  unfold balanced. rewrite !among_a, !Nat.add_assoc. split.
  - intros [H E]. split; [|split; [|split; [|exact E]]].
    + intros r r' ->. apply (H r (r' ++ m ++ v)). now rewrite <- app_assoc.
    + intros r r' ->. rewrite <- !among_a. apply (H (u ++ r) (r' ++ v)). now rewrite <- !app_assoc.
    + intros r r' ->. rewrite <- !among_a. apply (H ((u ++ m) ++ r) r'). now rewrite <- !app_assoc.
  - intros (H1 & H2 & H3 & E). split; [|exact E]. intros p q X. apply prefixes in X.
    destruct X as [(r & X)|[(r & r' & X & ->)|(r & r' & X & ->)]].
    + exact (H1 _ _ X).
    + rewrite !among_a. exact (H2 _ _ X).
    + rewrite !among_a, !Nat.add_assoc. exact (H3 _ _ X).
Qed.

Lemma once_count (P : pystr -> Prop) A s t : (forall x, In x A <-> P x) -> among A s = among A t -> once P s -> once P t.
Proof. intros H E O. apply (once_among P A t H). rewrite <- E. now apply (once_among P A s H). Qed.

Section Laws.
Context {SO : SetOrder}.
Variables (log : list (list pystr)) (al : alpha) (order : list (list pystr * list pystr)).
Hypothesis Run : alpha_of log = Ok al.
Hypothesis Ord : Permutation order (al_places al).
Notation rep := (replays (al_starting al) (al_ending al) order (al_all al)).

(** To replay, from what another trace does. *)
Lemma rep_by s t : (forall e, In e t -> occurs log e) ->
  among (al_starting al) s = among (al_starting al) t -> among (al_ending al) s = among (al_ending al) t ->
  (forall A B, maximal log A B -> balanced A B s -> balanced A B t) -> rep s -> rep t.
Proof.
  intros O E1 E2 H R. apply (replays_iff log al Run order Ord s) in R. apply (replays_iff log al Run order Ord t).
  destruct R as (_ & R1 & R2 & R3). destruct (sets_ok log al Run) as (S1 & S2 & _ & _).
  split; [exact O|]. split; [exact (once_count _ _ _ _ S1 E1 R1)|]. split; [exact (once_count _ _ _ _ S2 E2 R2)|].
  intros A B M. exact (H A B M (R3 A B M)).
Qed.
Lemma rep_occurs t e : rep t -> In e t -> occurs log e.
Proof. intros R. apply (replays_iff log al Run order Ord t) in R. apply (proj1 R). Qed.

Lemma max_causes A B x y : maximal log A B -> In x A -> In y B -> causes log x y.
Proof. intros [(_ & _ & _ & _ & _ & _ & H) _]. apply H. Qed.
Lemma max_apart A B x : maximal log A B -> In x A -> ~ In x B.
Proof. intros M X Y. destruct (max_causes A B x x M X Y) as [H K]. contradiction. Qed.

(** *** Neighbours *)

Lemma bits_at_most A B x y : ~ (In x A /\ In y B) -> bit A x + bit B y <= 1.
Proof.
  unfold bit. intros H. destruct (is_in x A) eqn:X, (is_in y B) eqn:Y; try lia.
  apply is_in_In in X, Y. now destruct H.
Qed.
Lemma swap_rep u x y v : ~ causes log x y -> rep (u ++ x :: y :: v) -> rep (u ++ y :: x :: v).
Proof.
  intros N R. assert (O := fun e => rep_occurs (u ++ x :: y :: v) e R). revert R. apply rep_by.
  - intros e E. apply O. apply in_app_or in E. apply in_or_app. cbn in *. tauto.
  - rewrite !among_a, !among_c. lia.
  - rewrite !among_a, !among_c. lia.
  - intros A B M H. apply (balanced_mid A B u [x; y] v) in H. apply (balanced_mid A B u [y; x] v).
    assert (K : bit A x + bit B y <= 1) by (apply bits_at_most; intros [X Y]; exact (N (max_causes A B x y M X Y))).
    assert (L : bit A y + bit B y <= 1) by (apply bits_at_most; intros [X Y]; exact (max_apart A B y M X Y)).
    destruct H as (H1 & H2 & H3 & E).
    assert (P0 := H2 [] _ eq_refl). assert (P2 := H2 [x; y] [] eq_refl).
    assert (Z : forall C, among C [] = 0) by reflexivity.
    rewrite ?among_c, ?Z in *.
    split; [exact H1|]. split; [|split; [|lia]].
    + intros [|p [|q [|k r]]] r' X; [| | |discriminate X].
      * rewrite !Z. lia.
      * injection X as <- _. rewrite !among_c, !Z. lia.
      * injection X as <- <- _. rewrite !among_c, !Z. lia.
    + intros r r' X. specialize (H3 r r' X). lia.
Qed.
Lemma rearranged_rep s t : rearranged log s t -> rep s -> rep t.
Proof. induction 1 as [|u x y v t N H IH]; [auto|]. intros R. apply IH. exact (swap_rep u x y v N R). Qed.

(** *** Activities that repeat themselves *)

Lemma max_no_loop A B x : maximal log A B -> follows log x x -> ~ In x A /\ ~ In x B.
Proof.
  intros [(_ & _ & _ & _ & HA & HB & _) _] F. split; intros H; [now apply (HA x x)|now apply (HB x x)].
Qed.
Lemma balanced_skip A B u x v : bit A x = 0 -> bit B x = 0 -> (balanced A B (u ++ x :: v) <-> balanced A B (u ++ v)).
Proof.
  intros X Y. rewrite (balanced_mid A B u [x] v), (balanced_mid A B u [] v).
  assert (Z : forall C, among C [] = 0) by reflexivity. rewrite !among_c, !Z, X, Y.
  split; intros (H1 & H2 & H3 & E); (split; [exact H1|]; split; [|split; [intros r r' K; specialize (H3 r r' K); lia|lia]]).
  - intros [|p r] r' K; [|discriminate K]. specialize (H2 [] _ eq_refl). exact H2.
  - intros [|p [|q r]] r' K; [| |discriminate K]; specialize (H2 [] _ eq_refl).
    + exact H2.
    + injection K as <- _. rewrite !among_c, !Z, X, Y in *. lia.
Qed.
Lemma loop_rep u x v : occurs log x -> follows log x x -> ~ starts log x -> ~ ends log x ->
  (rep (u ++ x :: v) <-> rep (u ++ v)).
Proof.
  intros Ox F NS NE. destruct (sets_ok log al Run) as (S1 & S2 & _ & _).
  assert (X : bit (al_starting al) x = 0) by (apply bit_out; rewrite S1; exact NS).
  assert (Y : bit (al_ending al) x = 0) by (apply bit_out; rewrite S2; exact NE).
  split; intros R; assert (O := fun e => rep_occurs _ e R); revert R; apply rep_by.
  - intros e E. apply O. apply in_app_or in E. apply in_or_app. cbn in *. tauto.
  - rewrite !among_a, !among_c. lia.
  - rewrite !among_a, !among_c. lia.
  - intros A B M. destruct (max_no_loop A B x M F) as [P Q]. now apply balanced_skip; apply bit_out.
  - intros e E. apply in_app_or in E. destruct E as [E|[<-|E]]; [|exact Ox|]; apply O, in_or_app; tauto.
  - rewrite !among_a, !among_c. lia.
  - rewrite !among_a, !among_c. lia.
  - intros A B M. destruct (max_no_loop A B x M F) as [P Q]. now apply balanced_skip; apply bit_out.
Qed.

(** *** Activities treated alike *)

Lemma alike_max A B x y : treated_alike log x y -> maximal log A B -> (In x A -> In y A) /\ (In x B -> In y B).
Proof.
  intros (_ & Oy & _ & _ & F) [(N1 & N2 & O1 & O2 & U1 & U2 & C) Mx].
  assert (Lp : forall z, follows log z x <-> follows log z y) by (intros; apply F).
  assert (Ls : forall z, follows log x z <-> follows log y z) by (intros; apply F).
  split; intros H.
  - destruct (Mx (y :: A) B) as [K _]; [|intros z Z; now right|intros z Z; exact Z|apply K; now left].
    split; [discriminate|]. split; [exact N2|]. split; [intros z [<-|Z]; auto|]. split; [exact O2|]. split; [|split; [exact U2|]].
    + intros a b [<-|Ha] [<-|Hb].
      * rewrite <- Lp, <- Ls. now apply U1.
      * rewrite <- Ls. now apply U1.
      * rewrite <- Lp. now apply U1.
      * now apply U1.
    + intros a b [<-|Ha] Hb; [|now apply C]. destruct (C x b H Hb) as [C1 C2]. split; [now rewrite <- Ls|now rewrite <- Lp].
  - destruct (Mx A (y :: B)) as [_ K]; [|intros z Z; exact Z|intros z Z; now right|apply K; now left].
    split; [exact N1|]. split; [discriminate|]. split; [exact O1|]. split; [intros z [<-|Z]; auto|]. split; [exact U1|]. split.
    + intros a b [<-|Ha] [<-|Hb].
      * rewrite <- Lp, <- Ls. now apply U2.
      * rewrite <- Ls. now apply U2.
      * rewrite <- Lp. now apply U2.
      * now apply U2.
    + intros a b Ha [<-|Hb]; [|now apply C]. destruct (C a x Ha H) as [C1 C2]. split; [now rewrite <- Lp|now rewrite <- Ls].
Qed.
Lemma alike_sym x y : treated_alike log x y -> treated_alike log y x.
Proof. intros (A & B & C & D & E). repeat split; try tauto; intros H; now apply E. Qed.
Lemma bit_same A x y : (In x A <-> In y A) -> bit A x = bit A y.
Proof.
  intros H. unfold bit. destruct (is_in x A) eqn:X, (is_in y A) eqn:Y; try reflexivity;
    [apply is_in_In in X; rewrite H in X; apply is_in_In in X|apply is_in_In in Y; rewrite <- H in Y; apply is_in_In in Y]; congruence.
Qed.
Lemma balanced_exchange A B u x y v : bit A x = bit A y -> bit B x = bit B y ->
  balanced A B (u ++ x :: v) -> balanced A B (u ++ y :: v).
Proof.
  intros X Y. rewrite (balanced_mid A B u [x] v), (balanced_mid A B u [y] v).
  assert (Z : forall C, among C [] = 0) by reflexivity. rewrite !among_c, !Z, <- X, <- Y.
  intros (H1 & H2 & H3 & E). split; [exact H1|]. split; [|split; [intros r r' K; specialize (H3 r r' K); lia|lia]].
  intros [|p [|q r]] r' K; [| |discriminate K].
  - exact (H2 [] _ eq_refl).
  - injection K as <- _. specialize (H2 [x] [] eq_refl). rewrite !among_c, !Z, <- ?X, <- ?Y in *. lia.
Qed.
Lemma exchange_one u x y v : treated_alike log x y -> rep (u ++ x :: v) -> rep (u ++ y :: v).
Proof.
  intros T R. assert (O := fun e => rep_occurs _ e R). destruct (sets_ok log al Run) as (S1 & S2 & _ & _).
  assert (Tc := T). destruct Tc as (_ & Oy & Ts & Te & _).
  revert R. apply rep_by.
  - intros e E. apply in_app_or in E. destruct E as [E|[<-|E]]; [|exact Oy|]; apply O, in_or_app; cbn; tauto.
  - rewrite !among_a, !among_c. rewrite (bit_same _ x y); [reflexivity|]. now rewrite !S1.
  - rewrite !among_a, !among_c. rewrite (bit_same _ x y); [reflexivity|]. now rewrite !S2.
  - intros A B M. destruct (alike_max A B x y T M) as [P Q]. destruct (alike_max A B y x (alike_sym _ _ T) M) as [P' Q'].
    apply balanced_exchange; apply bit_same; tauto.
Qed.
Lemma exchange_rep u x y v : treated_alike log x y -> (rep (u ++ x :: v) <-> rep (u ++ y :: v)).
Proof. intros T. split; apply exchange_one; [exact T|now apply alike_sym]. Qed.

(** *** Causes *)

Lemma extended A B : pair_of_sets log A B -> exists C D, maximal log C D /\ incl A C /\ incl B D.
Proof.
  intros H. destruct (C62_pairs SO log al Run) as (_ & P2 & _). destruct (C63_places SO log al Run) as (_ & U & _).
  destruct (P2 A B H) as (C & D & I & EC & ED). destruct (U (C, D) I) as ((C' & D') & I' & BC & BD). cbn in BC, BD.
  exists C', D'. split; [exact (place_maximal log al Run C' D' I')|]. split; intros x X; [apply BC, EC, X|apply BD, ED, X].
Qed.
Lemma cause_pair x y : causes log x y -> ~ follows log x x -> ~ follows log y y -> pair_of_sets log [x] [y].
Proof.
  intros C X Y. assert (O : occurs log x /\ occurs log y).
  { destruct C as [(p & q & I) _]. split; (eexists; split; [exact I|apply in_or_app; cbn; auto]). }
  split; [discriminate|]. split; [discriminate|]. split; [now intros z [<-|[]]|]. split; [now intros z [<-|[]]|].
  split; [now intros a b [<-|[]] [<-|[]]|]. split; [now intros a b [<-|[]] [<-|[]]|]. now intros a b [<-|[]] [<-|[]].
Qed.
Lemma among_some A t : 1 <= among A t -> exists z, In z t /\ In z A.
Proof.
  induction t as [|z t IH]; [intros H; inversion H|]. rewrite among_c. unfold bit. destruct (is_in z A) eqn:E; intros H.
  - exists z. split; [now left|now apply is_in_In].
  - destruct (IH H) as (w & W & I). exists w. split; [now right|exact I].
Qed.
Lemma cause_before x y u v : causes log x y -> ~ follows log x x -> ~ follows log y y -> rep (u ++ y :: v) ->
  exists z, In z u /\ causes log z y.
Proof.
  intros C X Y R. destruct (extended _ _ (cause_pair x y C X Y)) as (A & B & M & IA & IB).
  apply (replays_iff log al Run order Ord) in R. destruct R as (_ & _ & _ & R). destruct (R A B M) as [K _].
  assert (Yb : In y B) by (apply IB; now left).
  specialize (K (u ++ [y]) v). rewrite <- app_assoc in K. specialize (K eq_refl). rewrite !among_a, !among_c in K.
  rewrite (proj2 (bit_in B y) Yb), (bit_out A y) in K by (intros Z; exact (max_apart A B y M Z Yb)).
  change (among A []) with 0 in K. destruct (among_some A u) as (z & Z & I); [lia|].
  exists z. split; [exact Z|]. exact (max_causes A B z y M I Yb).
Qed.
Lemma effect_after x y u v : causes log x y -> ~ follows log x x -> ~ follows log y y -> rep (u ++ x :: v) ->
  exists z, In z v /\ causes log x z.
Proof.
  intros C X Y R. destruct (extended _ _ (cause_pair x y C X Y)) as (A & B & M & IA & IB).
  apply (replays_iff log al Run order Ord) in R. destruct R as (_ & _ & _ & R). destruct (R A B M) as [K E].
  assert (Xa : In x A) by (apply IA; now left).
  specialize (K u (x :: v) eq_refl). rewrite !among_a, !among_c in E.
  rewrite (proj2 (bit_in A x) Xa), (bit_out B x) in E by (exact (max_apart A B x M Xa)).
  destruct (among_some B v) as (z & Z & I); [lia|].
  exists z. split; [exact Z|]. exact (max_causes A B x z M Xa I).
Qed.
End Laws.

(** ** Logs with the same relations *)

Lemma relations_pair u v A B : same_relations u v -> pair_of_sets u A B -> pair_of_sets v A B.
Proof.
  intros S (N1 & N2 & O1 & O2 & U1 & U2 & C).
  assert (F : forall x y, follows u x y <-> follows v x y) by (intros; apply S).
  repeat split; auto.
  - intros x X. apply S. auto.
  - intros x X. apply S. auto.
  - intros x y X Y. rewrite <- F. auto.
  - intros x y X Y. rewrite <- F. auto.
  - apply F. now apply C.
  - rewrite <- F. now apply C.
Qed.
Lemma relations_sym u v : same_relations u v -> same_relations v u.
Proof. intros S x. destruct (S x) as (A & B & C & D). repeat split; try tauto; apply D. Qed.
Lemma relations_max u v A B : same_relations u v -> maximal u A B -> maximal v A B.
Proof.
  intros S [P M]. split; [now apply (relations_pair u)|]. intros C D Q. apply M. apply (relations_pair v); [now apply relations_sym|exact Q].
Qed.
Lemma once_iff (P Q : pystr -> Prop) t : (forall x, P x <-> Q x) -> once P t -> once Q t.
Proof. intros H (u & e & v & E & Pe & N). exists u, e, v. split; [exact E|]. split; [now apply H|]. intros x X. rewrite <- H. auto. Qed.
Lemma relations_one (SO SO' : SetOrder) u v a b o o' t : @alpha_of SO u = Ok a -> @alpha_of SO' v = Ok b ->
  Permutation o (al_places a) -> Permutation o' (al_places b) -> same_relations u v ->
  replays (al_starting a) (al_ending a) o (al_all a) t -> replays (al_starting b) (al_ending b) o' (al_all b) t.
Proof.
  intros A B P Q S R. apply (@replays_iff SO u a A o P) in R. apply (@replays_iff SO' v b B o' Q).
  destruct R as (R1 & R2 & R3 & R4). split; [intros e E; apply S; auto|].
  split; [apply (once_iff (starts u)); [intros; apply S|exact R2]|]. split; [apply (once_iff (ends u)); [intros; apply S|exact R3]|].
  intros X Y M. apply R4. apply (relations_max v); [now apply relations_sym|exact M].
Qed.
Lemma relations_rep (SO SO' : SetOrder) u v a b o o' t : @alpha_of SO u = Ok a -> @alpha_of SO' v = Ok b ->
  Permutation o (al_places a) -> Permutation o' (al_places b) -> same_relations u v ->
  (replays (al_starting a) (al_ending a) o (al_all a) t <-> replays (al_starting b) (al_ending b) o' (al_all b) t).
Proof.
  intros A B P Q S. split.
  - exact (relations_one SO SO' u v a b o o' t A B P Q S).
  - exact (relations_one SO' SO v u b a o' o t B A Q P (relations_sym _ _ S)).
Qed.
