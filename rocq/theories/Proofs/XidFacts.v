(** Identifiers: printing and parsing. *)
From Coq Require Import String NArith ZArith List Bool Lia.
From Verif Require Import Base.Unicode Base.PyBase Base.PyVal Model.Attr Proofs.BaseFacts Proofs.StrFacts.
Import ListNotations.

(** The characters of a printed identifier in either letter case. *)
Definition hexval (c : N) : option N := digit_val 16 c.

Definition hexchar_ok (c : N) : Prop := (c < 128)%N /\ exists d, digit_val 16 c = Some d.

Lemma digit_val_range c d : digit_val 16 c = Some d ->
  (48 <= c <= 57 \/ 97 <= c <= 102 \/ 65 <= c <= 70)%N.
Proof.
  unfold digit_val. cbv zeta.
  destruct ((48 <=? c)%N && (c <=? 57)%N) eqn:E1; [apply andb_true_iff in E1 as [A B]; apply N.leb_le in A, B; lia|].
  destruct ((97 <=? c)%N && (c <=? 102)%N) eqn:E2; [apply andb_true_iff in E2 as [A B]; apply N.leb_le in A, B; lia|].
  destruct ((65 <=? c)%N && (c <=? 70)%N) eqn:E3; [apply andb_true_iff in E3 as [A B]; apply N.leb_le in A, B; lia|].
  discriminate.
Qed.

Definition hexes : list N := map N.of_nat (seq 48 10 ++ seq 97 6 ++ seq 65 6).

Lemma hex_in_hexes c d : digit_val 16 c = Some d -> In c hexes.
Proof.
  intros H. apply digit_val_range in H. unfold hexes. apply in_map_iff. exists (N.to_nat c).
  split; [lia|]. rewrite !in_app_iff, !in_seq. lia.
Qed.

Lemma hex_check (P : N -> bool) : forallb P hexes = true ->
  forall c d, digit_val 16 c = Some d -> P c = true.
Proof. rewrite forallb_forall. intros H c d E. apply H. eapply hex_in_hexes; eauto. Qed.

Lemma hex_norm c d : digit_val 16 c = Some d -> int_norm c = c.
Proof. intros H. apply N.eqb_eq. revert c d H. apply (hex_check (fun c => N.eqb (int_norm c) c)). vm_compute. reflexivity. Qed.
Lemma hex_nospace c d : digit_val 16 c = Some d -> int_space c = false.
Proof. intros H. apply negb_true_iff. revert c d H. apply (hex_check (fun c => negb (int_space c))). vm_compute. reflexivity. Qed.
Lemma hex_nous c d : digit_val 16 c = Some d -> (c =? 95)%N = false.
Proof. intros H. apply negb_true_iff. revert c d H. apply (hex_check (fun c => negb (c =? 95)%N)). vm_compute. reflexivity. Qed.
Lemma hex_nosign c d : digit_val 16 c = Some d -> (c =? 45)%N = false /\ (c =? 43)%N = false.
Proof.
  intros H; split; apply negb_true_iff; revert c d H.
  - apply (hex_check (fun c => negb (c =? 45)%N)). vm_compute. reflexivity.
  - apply (hex_check (fun c => negb (c =? 43)%N)). vm_compute. reflexivity.
Qed.
Lemma hex_nox c d : digit_val 16 c = Some d -> ((c =? 120) || (c =? 88))%N = false.
Proof. intros H. apply negb_true_iff. revert c d H. apply (hex_check (fun c => negb ((c =? 120) || (c =? 88))%N)). vm_compute. reflexivity. Qed.
Lemma hex_upper c d : digit_val 16 c = Some d -> digit_val 16 (upper_ascii c) = Some d.
Proof.
  intros H. destruct (digit_val_range c d H) as [R|[R|R]].
  - unfold upper_ascii. rewrite (proj2 (N.leb_gt 97 c)) by lia. auto.
  - assert (E : digit_val 16 (upper_ascii c) = digit_val 16 c).
    { assert (X : forallb (fun c => match digit_val 16 (upper_ascii c), digit_val 16 c with Some a, Some b => N.eqb a b | _, _ => false end) hexes = true) by (vm_compute; reflexivity).
      assert (Y := hex_check _ X c d H). cbv beta in Y. destruct (digit_val 16 (upper_ascii c)), (digit_val 16 c); try discriminate. apply N.eqb_eq in Y. congruence. }
    congruence.
  - unfold upper_ascii. rewrite (proj2 (N.leb_gt 97 c)) by lia. auto.
Qed.

(** [ds] are the digits of [s]. *)
Definition hex_text (s : pystr) (ds : list N) : Prop :=
  Forall2 (fun c d => digit_val 16 c = Some d) s ds.

Lemma int_digits_hex s ds : hex_text s ds -> forall acc,
  int_digits 16 acc false s = Some (fold_left (fun a d => (a * 16 + d)%N) ds acc).
Proof.
  induction 1 as [|c d s ds H _ IH]; intros acc; simpl; auto.
  rewrite (hex_nous _ _ H), H. apply IH.
Qed.

Lemma hex_text_in s ds c : hex_text s ds -> In c s -> exists d, digit_val 16 c = Some d.
Proof. induction 1; simpl; [easy|]. intros [<-|]; eauto. Qed.

Lemma py_int_hex s ds : hex_text s ds -> s <> [] -> py_int 16 s = Some (Z.of_N (undigits 16 ds)).
Proof.
  intros H N. unfold py_int.
  replace (map int_norm s) with s.
  2:{ symmetry. clear N. induction H as [|c d s ds E _ IH]; simpl; auto. rewrite (hex_norm _ _ E). congruence. }
  rewrite strip_by_id.
  2:{ split; intros c t E; (destruct (hex_text_in s ds c H) as [d D]; [rewrite E; try (apply in_or_app); simpl; auto|]; eapply hex_nospace; eauto). }
  destruct H as [|c d s ds E H]; [easy|].
  destruct (hex_nosign _ _ E) as [-> ->].
  assert (P : int_prefix 16 (c :: s) = c :: s).
  { unfold int_prefix. destruct H as [|c' d' s ds E' H]; auto. rewrite (hex_nox _ _ E'), andb_false_r. auto. }
  rewrite P. simpl. rewrite E, (int_digits_hex _ _ H). reflexivity.
Qed.

Lemma undigits_zeros base n l : undigits base (repeat 0%N n ++ l) = undigits base l.
Proof. unfold undigits. induction n; simpl; auto. Qed.

Lemma map_repeat_ {A B} (f : A -> B) x n : map f (repeat x n) = repeat (f x) n.
Proof. induction n; simpl; congruence. Qed.

Lemma pad0_digits w l : pad0 w (map digit_char l) = map digit_char (repeat 0%N (w - length l) ++ l).
Proof. unfold pad0. rewrite map_app, map_repeat_, map_length. reflexivity. Qed.

Lemma undigits_lower base l : (1 <= base)%N -> l <> [] -> (hd 0%N l <> 0)%N -> (base ^ N.of_nat (length l - 1) <= undigits base l)%N.
Proof.
  intros Hb. induction l as [|x l IH] using rev_ind; [easy|].
  intros _ H. rewrite undigits_app, app_length. simpl length. replace (length l + 1 - 1)%nat with (length l) by lia.
  destruct l as [|y l].
  - simpl in *. unfold undigits. simpl. lia.
  - assert (IH' := IH ltac:(discriminate) H). simpl length in *.
    replace (S (length l) - 1)%nat with (length l) in IH' by lia.
    rewrite Nat2N.inj_succ, N.pow_succ_r'. nia.
Qed.

(** The leading digit of a printed number is not zero, unless it is the only one. *)
Lemma digits_rev_last base fuel n : (2 <= base)%N -> (n < base ^ N.of_nat fuel)%N -> (0 < n)%N ->
  last (digits_rev base fuel n) 0%N <> 0%N.
Proof.
  intros Hb. revert n. induction fuel as [|f IH]; intros n Hn Hp.
  - change (N.of_nat 0) with 0%N in Hn. rewrite N.pow_0_r in Hn. lia.
  - cbn [digits_rev]. destruct (N.eqb_spec (n / base) 0) as [E|E].
    + simpl. assert (D : n = (base * (n / base) + n mod base)%N) by (apply N.div_mod; lia).
      rewrite E in D. lia.
    + rewrite Nat2N.inj_succ, N.pow_succ_r' in Hn.
      assert (L : (n / base < base ^ N.of_nat f)%N) by (apply N.div_lt_upper_bound; lia).
      assert (G := IH (n / base)%N L (proj1 (N.neq_0_lt_0 _) E)).
      destruct (digits_rev base f (n / base)) as [|y l] eqn:F.
      * simpl in G. congruence.
      * exact G.
Qed.

Lemma hd_rev_last {A} (l : list A) d : hd d (rev l) = last l d.
Proof.
  induction l as [|x l IH] using rev_ind; auto.
  rewrite rev_app_distr, last_last. reflexivity.
Qed.

Lemma base_digits_length base n w : (2 <= base)%N -> (n < base ^ N.of_nat w)%N -> (0 < w)%nat ->
  (length (base_digits base n) <= w)%nat.
Proof.
  intros Hb Hn Hw.
  destruct (N.eq_dec n 0) as [->|N0].
  { unfold base_digits. cbn [N.size_nat digits_rev]. rewrite N.div_0_l by lia. simpl. lia. }
  destruct (base_digits_spec base n Hb) as (H1 & H2 & H3).
  assert (H4 : hd 0%N (base_digits base n) <> 0%N).
  { unfold base_digits. rewrite hd_rev_last. apply digits_rev_last; auto; [|lia].
    apply N.lt_le_trans with (2 ^ N.of_nat (N.size_nat n))%N; [apply size_nat_bound|].
    apply N.le_trans with (base ^ N.of_nat (N.size_nat n))%N; [apply N.pow_le_mono_l; lia|apply N.pow_le_mono_r; lia]. }
  assert (H5 := undigits_lower base _ ltac:(lia) H3 H4). rewrite H1 in H5.
  assert (N.of_nat (length (base_digits base n) - 1) < N.of_nat w)%N; [|lia].
  apply N.pow_lt_mono_r_iff with base; lia.
Qed.

Lemma pad0_length w s : (length s <= w)%nat -> length (pad0 w s) = w.
Proof. intros. unfold pad0. rewrite app_length, repeat_length. lia. Qed.

Lemma hex_text_digits l : Forall (fun d => (d < 16)%N) l -> hex_text (map digit_char l) l.
Proof. induction 1; simpl; constructor; auto. apply digit_char_val; lia. Qed.

Definition hex32_digits (u : N) : list N := repeat 0%N (32 - length (base_digits 16 u)) ++ base_digits 16 u.

Lemma hex32_eq u : hex32 u = map digit_char (hex32_digits u).
Proof. unfold hex32, hex32_digits. rewrite print_base_eq, pad0_digits. reflexivity. Qed.

Lemma hex32_digits_spec u : (u < 2 ^ 128)%N ->
  length (hex32_digits u) = 32%nat /\ undigits 16 (hex32_digits u) = u
  /\ Forall (fun d => (d < 16)%N) (hex32_digits u).
Proof.
  intros H. unfold hex32_digits.
  destruct (base_digits_spec 16 u) as (H1 & H2 & H3); [lia|].
  assert (L : (length (base_digits 16 u) <= 32)%nat).
  { apply base_digits_length; try lia; exact H. }
  split; [|split].
  - rewrite app_length, repeat_length. lia.
  - now rewrite undigits_zeros.
  - apply Forall_app. split; auto. apply Forall_forall. intros x Hx. apply repeat_spec in Hx. subst. lia.
Qed.

(** Removing the hyphens of any case variant of the printed text gives a 32-digit text. *)
Definition dash_or_hex (c : N) : Prop := c = 45%N \/ exists d, digit_val 16 c = Some d.

Lemma upper_hex_inv c c' d : upper_ascii c = c' -> digit_val 16 c' = Some d -> digit_val 16 c = Some d.
Proof.
  unfold upper_ascii. intros <-.
  destruct ((97 <=? c)%N && (c <=? 122)%N) eqn:E; auto.
  apply andb_true_iff in E as [A B]. apply N.leb_le in A, B.
  intros H. assert (R := digit_val_range _ _ H).
  assert (R' : (97 <= c <= 102)%N) by lia.
  assert (X : digit_val 16 (upper_ascii c) = Some d).
  { unfold upper_ascii. rewrite (proj2 (N.leb_le 97 c)), (proj2 (N.leb_le c 122)) by lia. exact H. }
  assert (D : exists d', digit_val 16 c = Some d').
  { unfold digit_val. cbv zeta. rewrite (proj2 (N.leb_gt c 57)) by lia. rewrite andb_false_r.
    rewrite (proj2 (N.leb_le 97 c)), (proj2 (N.leb_le c 102)) by lia. cbn [andb].
    rewrite (proj2 (N.ltb_lt _ _)) by lia. eauto. }
  destruct D as [d' D]. assert (Y := hex_upper _ _ D). congruence.
Qed.

Lemma upper_dash_inv c : upper_ascii c = 45%N -> c = 45%N.
Proof.
  unfold upper_ascii. destruct ((97 <=? c)%N && (c <=? 122)%N) eqn:E; auto.
  apply andb_true_iff in E as [A B]. apply N.leb_le in A, B. lia.
Qed.

Lemma replace_dash s :
  replace (py "-") [] s = filter (fun c => negb (c =? 45)%N) s.
Proof. apply replace1_filter. Qed.

Lemma hex_text_app s1 ds1 s2 ds2 : hex_text s1 ds1 -> hex_text s2 ds2 -> hex_text (s1 ++ s2) (ds1 ++ ds2).
Proof. apply Forall2_app. Qed.

Lemma Forall2_length_ {A B} (R : A -> B -> Prop) l l' : Forall2 R l l' -> length l = length l'.
Proof. induction 1; simpl; congruence. Qed.
Lemma Forall2_firstn_ {A B} (R : A -> B -> Prop) n l l' : Forall2 R l l' -> Forall2 R (firstn n l) (firstn n l').
Proof. intros H; revert n; induction H; intros [|n]; simpl; auto. Qed.
Lemma Forall2_skipn_ {A B} (R : A -> B -> Prop) n l l' : Forall2 R l l' -> Forall2 R (skipn n l) (skipn n l').
Proof. intros H; revert n; induction H; intros [|n]; simpl; auto. Qed.

(** Relation between a text and a sequence of digits with hyphens in between. *)
Inductive dashed : pystr -> list N -> Prop :=
| dashed_nil : dashed [] []
| dashed_dash s ds : dashed s ds -> dashed (45%N :: s) ds
| dashed_hex c d s ds : digit_val 16 c = Some d -> dashed s ds -> dashed (c :: s) (d :: ds).

Lemma dashed_app s1 ds1 s2 ds2 : dashed s1 ds1 -> dashed s2 ds2 -> dashed (s1 ++ s2) (ds1 ++ ds2).
Proof. induction 1; simpl; auto; constructor; auto. Qed.

Lemma dashed_of_hex s ds : hex_text s ds -> dashed s ds.
Proof. induction 1; constructor; auto. Qed.

Lemma dashed_filter s ds : dashed s ds -> hex_text (filter (fun c => negb (c =? 45)%N) s) ds.
Proof.
  induction 1; simpl; try constructor; auto.
  rewrite (proj1 (hex_nosign _ _ H)). simpl. constructor; auto.
Qed.

Lemma dashed_in s ds c : dashed s ds -> In c s -> dash_or_hex c.
Proof. induction 1; simpl; [easy| |]; intros [<-|]; auto; [now left|right; eauto]. Qed.

Lemma dashed_unupper s s' ds : upper s = s' -> dashed s' ds -> dashed s ds.
Proof.
  intros E H. revert s E. induction H; intros s0 E; destruct s0 as [|x s0]; try discriminate.
  - constructor.
  - injection E as E1 E2. apply upper_dash_inv in E1. subst x. constructor; auto.
  - injection E as E1 E2. constructor; auto. eapply upper_hex_inv; eauto.
Qed.

Lemma dashed_upper s ds : dashed s ds -> dashed (upper s) ds.
Proof.
  induction 1; simpl; try constructor; auto. now apply hex_upper.
Qed.

Lemma uuid_str_dashed u : (u < 2 ^ 128)%N -> dashed (uuid_str u) (hex32_digits u).
Proof.
  intros H. destruct (hex32_digits_spec u H) as (L & _ & F).
  unfold uuid_str. rewrite hex32_eq.
  assert (HT := hex_text_digits _ F). set (h := map digit_char (hex32_digits u)) in *.
  set (ds := hex32_digits u) in *.
  replace ds with (firstn 8 ds ++ firstn 4 (skipn 8 ds) ++ firstn 4 (skipn 12 ds) ++ firstn 4 (skipn 16 ds) ++ skipn 20 ds).
  2:{ clearbody ds. clear - L. do 32 (destruct ds as [|? ds]; [discriminate|]). destruct ds; [reflexivity|discriminate]. }
  apply dashed_app; [apply dashed_of_hex, Forall2_firstn_; auto|]. apply dashed_dash.
  apply dashed_app; [apply dashed_of_hex, Forall2_firstn_, Forall2_skipn_; auto|]. apply dashed_dash.
  apply dashed_app; [apply dashed_of_hex, Forall2_firstn_, Forall2_skipn_; auto|]. apply dashed_dash.
  apply dashed_app; [apply dashed_of_hex, Forall2_firstn_, Forall2_skipn_; auto|]. apply dashed_dash.
  apply dashed_of_hex, Forall2_skipn_; auto.
Qed.

Lemma dash_or_hex_not c : dash_or_hex c -> (c <> 117 /\ c <> 123 /\ c <> 125)%N.
Proof.
  intros [->|[d H]]; [lia|]. apply digit_val_range in H. lia.
Qed.

Lemma uuid_of_dashed s u : (u < 2 ^ 128)%N -> dashed s (hex32_digits u) -> uuid_of_str s = Some u.
Proof.
  intros Hu D. destruct (hex32_digits_spec u Hu) as (L & V & F).
  unfold uuid_of_str.
  assert (NU : ~ In 117%N s) by (intros I; apply (dashed_in _ _ _ D) in I; apply dash_or_hex_not in I; lia).
  change (py "urn:") with (117%N :: py "rn:"). rewrite replace_absent by auto.
  change (py "uuid:") with (117%N :: py "uid:"). rewrite replace_absent by auto.
  rewrite strip_by_id.
  2:{ split; intros c t E.
      - assert (I : In c s) by (rewrite E; simpl; auto).
        apply (dashed_in _ _ _ D), dash_or_hex_not in I. apply orb_false_iff; split; apply N.eqb_neq; lia.
      - assert (I : In c s) by (rewrite E; apply in_or_app; simpl; auto).
        apply (dashed_in _ _ _ D), dash_or_hex_not in I. apply orb_false_iff; split; apply N.eqb_neq; lia. }
  rewrite replace_dash. apply dashed_filter in D.
  set (h := filter _ s) in *.
  assert (LH : length h = 32%nat) by (rewrite (Forall2_length_ _ _ _ D); auto).
  rewrite LH. cbn [Nat.eqb]. rewrite (py_int_hex _ _ D) by (intros E; rewrite E in LH; discriminate).
  rewrite V. rewrite (proj2 (Z.leb_le _ _)), (proj2 (Z.ltb_lt _ _)).
  - cbn [andb]. now rewrite N2Z.id.
  - apply N2Z.inj_lt in Hu. exact Hu.
  - lia.
Qed.

Lemma uuid_of_xid_str u s : (u < 2 ^ 128)%N -> upper s = xid_str u -> uuid_of_str s = Some u.
Proof.
  intros H E. apply uuid_of_dashed; auto. eapply dashed_unupper; eauto.
  apply dashed_upper, uuid_str_dashed; auto.
Qed.

Lemma upper_ascii_idem c : upper_ascii (upper_ascii c) = upper_ascii c.
Proof.
  unfold upper_ascii. destruct ((97 <=? c)%N && (c <=? 122)%N) eqn:E; [|now rewrite E].
  apply andb_true_iff in E as [A B]. apply N.leb_le in A, B.
  rewrite (proj2 (N.leb_gt 97 (c - 32))) by lia. reflexivity.
Qed.

Lemma upper_idem s : upper (upper s) = upper s.
Proof. unfold upper. rewrite map_map. apply map_ext. apply upper_ascii_idem. Qed.

Lemma xid_roundtrip u : (u < 2 ^ 128)%N -> uuid_of_str (xid_str u) = Some u.
Proof. intros H. apply uuid_of_xid_str; auto. apply upper_idem. Qed.

Lemma xid_str_inj u v : (u < 2 ^ 128)%N -> (v < 2 ^ 128)%N -> xid_str u = xid_str v -> u = v.
Proof. intros Hu Hv E. apply xid_roundtrip in Hu, Hv. congruence. Qed.

Lemma xid_compare_spec a b :
  (xid_compare a b < 0 <-> (a < b)%N)%Z /\ (xid_compare a b = 0 <-> a = b)%Z /\ (0 < xid_compare a b <-> (b < a)%N)%Z
  /\ xid_compare b a = (- xid_compare a b)%Z.
Proof.
  unfold xid_compare.
  destruct (N.eqb_spec a b), (N.eqb_spec b a), (N.ltb_spec a b), (N.ltb_spec b a); subst; lia.
Qed.
