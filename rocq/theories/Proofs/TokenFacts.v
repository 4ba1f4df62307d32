From Coq Require Import String NArith ZArith List Bool Lia.
From Verif Require Import Base.PyBase Model.Token Model.Registry Model.NameMap Spec.Registries
  Proofs.BaseFacts Proofs.StrFacts.
Import ListNotations.

(** ** Stripping *)

Lemma dropwhile_app_all p a s : Forall (fun c => p c = true) a -> dropwhile p (a ++ s) = dropwhile p s.
Proof. induction 1 as [|c a H F IH]; simpl; auto. now rewrite H. Qed.

Lemma dropwhile_suffix p s : exists a, s = a ++ dropwhile p s /\ Forall (fun c => p c = true) a.
Proof.
  induction s as [|c s (a & E & F)]; simpl; [exists []; auto|]. destruct (p c) eqn:P.
  - exists (c :: a). simpl. split; [congruence|auto].
  - exists []. auto.
Qed.

Lemma dropwhile_head p s c t : dropwhile p s = c :: t -> p c = false.
Proof.
  induction s as [|d s IH]; simpl; [discriminate|]. destruct (p d) eqn:P; auto. intros [= -> _]. exact P.
Qed.

Lemma dropwhile_idem p s : dropwhile p (dropwhile p s) = dropwhile p s.
Proof.
  destruct (dropwhile p s) as [|c t] eqn:E; auto. simpl. now rewrite (dropwhile_head _ _ _ _ E).
Qed.

(** First and last characters are not stripped. *)
Definition trimmed (p : N -> bool) (s : pystr) : Prop := dropwhile p s = s /\ dropwhile p (rev s) = rev s.

Lemma strip_trimmed p s : strip_by p s = s <-> trimmed p s.
Proof.
  unfold strip_by, trimmed. split.
  - intros H. assert (D : dropwhile p s = s).
    { destruct (dropwhile_suffix p s) as (a & E & _).
      destruct (dropwhile_suffix p (rev (dropwhile p s))) as (b & E2 & _).
      assert (L : List.length (dropwhile p (rev (dropwhile p s))) = List.length s) by (rewrite <- H at 2; now rewrite rev_length).
      apply (f_equal (@List.length N)) in E, E2. rewrite app_length in E, E2. rewrite rev_length in E2.
      destruct (dropwhile_suffix p s) as (a' & E' & _). assert (a' = []).
      { apply length_zero_iff_nil. apply (f_equal (@List.length N)) in E'. rewrite app_length in E'. lia. }
      subst a'. symmetry. exact E'. }
    split; auto. rewrite D in H. rewrite <- H at 2. now rewrite rev_involutive.
  - intros [-> ->]. apply rev_involutive.
Qed.

Lemma trimmed_nil p : trimmed p [].
Proof. split; reflexivity. Qed.

Lemma strip_around p a w b : Forall (fun c => p c = true) a -> Forall (fun c => p c = true) b ->
  trimmed p w -> strip_by p (a ++ w ++ b) = w.
Proof.
  intros A B [T1 T2]. unfold strip_by. rewrite dropwhile_app_all by auto.
  destruct w as [|c w].
  - simpl. assert (E : dropwhile p b = []).
    { rewrite <- (app_nil_r b). now rewrite dropwhile_app_all. }
    rewrite E. reflexivity.
  - assert (P : p c = false).
    { simpl in T1. destruct (p c) eqn:P; auto. exfalso.
      destruct (dropwhile_suffix p w) as (x & E & _). rewrite T1 in E.
      apply (f_equal (@List.length N)) in E. rewrite app_length in E. simpl in E. lia. }
    assert (E : dropwhile p ((c :: w) ++ b) = (c :: w) ++ b) by (simpl; now rewrite P).
    rewrite E, rev_app_distr, dropwhile_app_all, T2 by now apply Forall_rev. apply rev_involutive.
Qed.

Lemma strip_is_trimmed p s : trimmed p (strip_by p s).
Proof.
  apply strip_trimmed. unfold strip_by. set (u := dropwhile p s).
  destruct (dropwhile_suffix p (rev u)) as (b & E & F).
  assert (Eu : u = rev (dropwhile p (rev u)) ++ rev b) by (rewrite <- rev_app_distr, <- E; now rewrite rev_involutive).
  set (w := rev (dropwhile p (rev u))) in *.
  assert (Dw : dropwhile p w = w).
  { assert (Du : dropwhile p u = u) by apply dropwhile_idem. clearbody w. clear E. clearbody u. subst u.
    destruct w as [|c w']; auto. simpl in *. destruct (p c) eqn:P; auto. exfalso.
    destruct (dropwhile_suffix p (w' ++ rev b)) as (x & E2 & _). rewrite Du in E2.
    apply (f_equal (@List.length N)) in E2. rewrite app_length with (l := x) in E2. simpl in E2. lia. }
  rewrite Dw. unfold w. now rewrite rev_involutive, dropwhile_idem.
Qed.

Lemma strip_incl p s c : In c (strip_by p s) -> In c s.
Proof.
  unfold strip_by. intros H. rewrite <- in_rev in H.
  destruct (dropwhile_suffix p (rev (dropwhile p s))) as (b & E & _).
  assert (I : In c (rev (dropwhile p s))) by (rewrite E; apply in_app_iff; auto).
  rewrite <- in_rev in I. destruct (dropwhile_suffix p s) as (a & E2 & _). rewrite E2. apply in_app_iff. auto.
Qed.

Lemma trimmed_app p a m b : a <> [] -> b <> [] -> trimmed p a -> trimmed p b -> trimmed p (a ++ m ++ b).
Proof.
  assert (H : forall a t, a <> [] -> dropwhile p a = a -> dropwhile p (a ++ t) = a ++ t).
  { intros [|c x] t Nx D; [congruence|]. simpl in *. destruct (p c) eqn:P; auto. exfalso.
    destruct (dropwhile_suffix p x) as (y & E & _). rewrite D in E.
    apply (f_equal (@List.length N)) in E. rewrite app_length in E. simpl in E. lia. }
  intros NA NB [A1 A2] [B1 B2]. split; auto. rewrite !rev_app_distr, <- app_assoc. apply H; auto.
  intros E. apply NB. rewrite <- (rev_involutive b), E. reflexivity.
Qed.

(** ** Extraction *)

Definition tok (u : pystr) : list pystr := filter nonempty [strip u].

Lemma extract_app u v : ~ In 39%N u -> extract_tokens (u ++ py "'" ++ v) = tok u ++ extract_tokens v.
Proof.
  intros H. unfold extract_tokens, tok. change (py "'" ++ v) with (39%N :: v). change (py "'") with [39%N].
  rewrite split1_app by auto. simpl. destruct (nonempty (strip u)); reflexivity.
Qed.

Lemma extract_one u : ~ In 39%N u -> extract_tokens u = tok u.
Proof. intros H. unfold extract_tokens, tok. change (py "'") with [39%N]. now rewrite split1_absent. Qed.

Lemma nonempty_true s : nonempty s = true <-> s <> [].
Proof. unfold nonempty. destruct s; simpl; split; congruence. Qed.

Lemma tok_trimmed a w b : Forall (fun c => is_space c = true) a -> Forall (fun c => is_space c = true) b ->
  w <> [] -> strip w = w -> tok (a ++ w ++ b) = [w].
Proof.
  intros A B N T. unfold tok, strip in *. rewrite strip_around by (auto; now apply strip_trimmed).
  simpl. apply nonempty_true in N. now rewrite N.
Qed.

Lemma join_run_trimmed run : run <> [] -> Forall good_key run ->
  join (py " ") run <> [] /\ strip (join (py " ") run) = join (py " ") run /\ ~ In 39%N (join (py " ") run).
Proof.
  intros N F. induction F as [|k run (K1 & K2 & K3) F IH]; [congruence|].
  destruct run as [|k2 run]; [simpl; auto|].
  destruct IH as (I1 & I2 & I3); [discriminate|]. change (join (py " ") (k :: k2 :: run)) with (k ++ py " " ++ join (py " ") (k2 :: run)).
  split; [destruct k; simpl; congruence|]. split.
  - unfold strip in *. apply strip_trimmed. apply trimmed_app; auto; now apply strip_trimmed.
  - rewrite !in_app_iff. change (py " ") with [32%N] at 1. simpl In at 2. intuition discriminate.
Qed.

Definition flush (run : list pystr) : list pystr := match run with [] => [] | _ => [join (py " ") run] end.
Definition pre (run : list pystr) : pystr := flat_map (fun r => r ++ py " ") run.

Lemma pre_join run : run <> [] -> pre run = join (py " ") run ++ py " ".
Proof.
  induction run as [|k run IH]; [congruence|]. intros _. unfold pre in *. cbn [flat_map].
  destruct run as [|k2 run]; [simpl; now rewrite app_nil_r|].
  rewrite IH by discriminate. change (join (py " ") (k :: k2 :: run)) with (k ++ py " " ++ join (py " ") (k2 :: run)).
  now rewrite <- !app_assoc.
Qed.

Lemma pre_app run k : pre (run ++ [k]) = pre run ++ k ++ py " ".
Proof. unfold pre. rewrite flat_map_app. simpl. now rewrite app_nil_r. Qed.

Definition all_blank (lead : pystr) : Prop := Forall (fun c => c = 32%N) lead.
Lemma blank_space lead : all_blank lead -> Forall (fun c => is_space c = true) lead.
Proof. apply Forall_impl. intros c ->. reflexivity. Qed.

Lemma tok_pre lead run : all_blank lead -> Forall good_key run -> tok (lead ++ pre run) = flush run.
Proof.
  intros L F. destruct run as [|k run].
  - simpl. assert (E : tok (lead ++ [] ++ []) = []); [|exact E].
    unfold tok, strip. rewrite strip_around; auto using blank_space, trimmed_nil.
  - rewrite pre_join by discriminate. destruct (join_run_trimmed (k :: run)) as (J1 & J2 & J3); auto; [discriminate|].
    apply tok_trimmed; auto using blank_space. repeat constructor.
Qed.

Lemma pre_no_quote lead run : all_blank lead -> Forall good_key run -> ~ In 39%N (lead ++ pre run).
Proof.
  intros L F. rewrite in_app_iff. intros [I|I].
  - unfold all_blank in L. rewrite Forall_forall in L. apply L in I. discriminate.
  - unfold pre in I. apply in_flat_map in I as (k & Ik & I). rewrite Forall_forall in F.
    destruct (F k Ik) as (_ & _ & Q). apply in_app_iff in I as [I|[I|[]]]; [auto|discriminate].
Qed.

Lemma extract_merged keys : forall lead run, all_blank lead -> Forall good_key run -> Forall good_key keys ->
  extract_tokens (lead ++ pre run ++ join (py " ") (map quoted keys)) = merged run keys.
Proof.
  induction keys as [|k keys IH]; intros lead run L R K; cbn [map merged].
  - cbn [join]. rewrite app_nil_r, extract_one by now apply pre_no_quote. now apply tok_pre.
  - inversion K as [|? ? (K1 & K2 & K3) KS]; subst. fold (flush run). unfold quoted at 1. destruct (spaced k) eqn:S.
    + assert (Ek : forall rest, extract_tokens (lead ++ pre run ++ (py "'" ++ k ++ py "'") ++ rest) = flush run ++ k :: extract_tokens rest).
      { intros rest. rewrite <- !app_assoc, (app_assoc lead), extract_app by now apply pre_no_quote.
        rewrite extract_app by auto. rewrite tok_pre by auto. f_equal.
        assert (T : tok ([] ++ k ++ []) = [k]) by (apply tok_trimmed; auto). rewrite app_nil_r in T. simpl in T.
        rewrite T. reflexivity. }
      destruct keys as [|k2 keys].
      * cbn [map join]. rewrite <- (app_nil_r (py "'" ++ k ++ py "'")), Ek. reflexivity.
      * change (join (py " ") ((py "'" ++ k ++ py "'") :: map quoted (k2 :: keys)))
          with ((py "'" ++ k ++ py "'") ++ py " " ++ join (py " ") (map quoted (k2 :: keys))).
        rewrite Ek. f_equal. f_equal. apply (IH (py " ") []); auto. repeat constructor.
    + assert (Gk : good_key k) by (repeat split; auto).
      assert (R' : Forall good_key (run ++ [k])) by (apply Forall_app; split; auto).
      destruct keys as [|k2 keys].
      * cbn [map join merged]. destruct (join_run_trimmed (run ++ [k])) as (J1 & J2 & J3); auto; [now destruct run|].
        assert (E : lead ++ pre run ++ k = lead ++ join (py " ") (run ++ [k]) ++ []).
        { f_equal. rewrite app_nil_r. destruct run as [|r0 run]; [reflexivity|].
          rewrite pre_join by discriminate. assert (P := pre_join ((r0 :: run) ++ [k])). rewrite pre_app, pre_join in P by discriminate.
          specialize (P ltac:(destruct run; discriminate)).
          rewrite app_assoc in P. apply app_inv_tail in P. exact P. }
        rewrite E, extract_one.
        -- rewrite tok_trimmed; auto using blank_space. destruct (run ++ [k]) eqn:Z; auto. now destruct run.
        -- rewrite app_nil_r, in_app_iff. intros [I|I]; auto. unfold all_blank in L. rewrite Forall_forall in L. apply L in I. discriminate.
      * change (join (py " ") (k :: map quoted (k2 :: keys))) with (k ++ py " " ++ join (py " ") (map quoted (k2 :: keys))).
        assert (E : lead ++ pre run ++ k ++ py " " ++ join (py " ") (map quoted (k2 :: keys))
                  = lead ++ pre (run ++ [k]) ++ join (py " ") (map quoted (k2 :: keys))) by (rewrite pre_app, <- !app_assoc; reflexivity).
        rewrite E. apply IH; auto.
Qed.

(** ** Formatting *)
Lemma split_count c s : Nat.ltb 1 (List.length (split [c] s)) = mem_char c s.
Proof.
  destruct (mem_char c s) eqn:M.
  - apply mem_char_spec in M. apply in_split in M as (a & b & ->). apply Nat.ltb_lt.
    assert (G : forall a b, 1 < List.length (split [c] (a ++ c :: b))).
    { clear. induction a as [|x a IH]; intros b; simpl.
      - rewrite split1_here. simpl. assert (N := split_nonnil [c] b). destruct (split [c] b); [congruence|simpl; lia].
      - destruct (N.eq_dec x c) as [->|N].
        + rewrite split1_here. specialize (IH b). simpl. lia.
        + rewrite split1_other by auto. specialize (IH b). destruct (split [c] (a ++ c :: b)); simpl in *; lia. }
    apply G.
  - rewrite split1_absent; auto. intros I. apply mem_char_spec in I. congruence.
Qed.

Lemma replace_removes c s : replace [c] [] s = filter (fun x => negb (N.eqb x c)) s.
Proof.
  unfold replace. induction s as [|x s IH]; cbn [filter].
  - reflexivity.
  - destruct (N.eqb_spec x c) as [->|N]; simpl.
    + rewrite split1_here. assert (Nn := split_nonnil [c] s). destruct (split [c] s); [congruence|]. exact IH.
    + rewrite split1_other by auto. assert (Nn := split_nonnil [c] s). destruct (split [c] s) as [|h r]; [congruence|].
      rewrite <- IH. destruct r; reflexivity.
Qed.

Theorem format_spec l : format_token l = join (py " ") (map quoted (filter nonempty l)).
Proof.
  unfold format_token. f_equal. change (py " ") with [32%N].
  induction l as [|k l IH]; cbn [map filter]; auto. rewrite IH, split_count. clear IH.
  fold (spaced k). unfold quoted at 1. destruct (spaced k) eqn:S; cbv iota.
  - assert (E : nonempty (replace [32%N] [] (py "'" ++ k ++ py "'")) = true).
    { rewrite replace_removes, filter_app. reflexivity. }
    simpl app in *. rewrite E. assert (Nk : nonempty k = true) by (destruct k; [discriminate|reflexivity]).
    rewrite Nk. simpl. unfold quoted. now rewrite S.
  - rewrite replace_removes. assert (E : filter (fun x => negb (N.eqb x 32)) k = k).
    { clear - S. unfold spaced in S. apply mem_char_false in S. induction k as [|x k IH]; simpl; auto.
      destruct (N.eqb_spec x 32) as [->|N]; simpl.
      - exfalso. apply S. simpl. auto.
      - f_equal. apply IH. intros I. apply S. simpl. auto. }
    rewrite E. destruct (nonempty k); auto. simpl. unfold quoted. now rewrite S.
Qed.

Theorem extract_format keys : Forall good_key keys -> extract_tokens (format_token keys) = merged [] keys.
Proof.
  intros H. rewrite format_spec. assert (F : filter nonempty keys = keys).
  { induction H as [|k keys (N & _) F IH]; simpl; auto. apply nonempty_true in N. now rewrite N, IH. }
  rewrite F. apply (extract_merged keys [] []); auto; constructor.
Qed.

Lemma merged_length keys : forall run,
  (List.length (merged run keys) <= match run with [] => 0 | _ => 1 end + List.length keys)%nat.
Proof.
  induction keys as [|k keys IH]; intros run; simpl.
  - destruct run; simpl; lia.
  - destruct (spaced k).
    + specialize (IH []). destruct run; simpl in *; lia.
    + specialize (IH (run ++ [k])). destruct run; simpl in *; lia.
Qed.

Lemma merged_plain k keys : spaced k = false -> merged [k] keys = k :: keys ->
  match keys with [] => True | k2 :: _ => spaced k2 = true end /\ merged [] keys = keys.
Proof.
  intros S H. destruct keys as [|k2 keys]; [auto|]. simpl in *. destruct (spaced k2) eqn:S2.
  - split; auto. simpl in H. congruence.
  - exfalso. apply (f_equal (@List.length pystr)) in H. assert (L := merged_length keys [k; k2]). simpl in *. lia.
Qed.

Theorem extract_format_same keys : Forall good_key keys ->
  extract_tokens (format_token keys) = keys <-> no_adjacent_plain keys.
Proof.
  intros G. rewrite extract_format by auto. clear G. split.
  - induction keys as [|k keys IH]; [simpl; auto|]. intros H.
    assert (P : match keys with [] => True | k2 :: _ => spaced k = true \/ spaced k2 = true end /\ merged [] keys = keys).
    { simpl merged in H. destruct (spaced k) eqn:S1.
      - injection H as H. split; auto. destruct keys; auto.
      - apply merged_plain in H as [H1 H2]; auto. split; auto. destruct keys; auto. }
    destruct P as [P1 P2]. specialize (IH P2). destruct keys; simpl; auto.
  - induction keys as [|k keys IH]; [reflexivity|]. intros H. destruct keys as [|k2 keys].
    + simpl. destruct (spaced k); reflexivity.
    + assert (H2 : (spaced k = true \/ spaced k2 = true) /\ no_adjacent_plain (k2 :: keys)) by exact H.
      clear H. destruct H2 as [H1 H2]. specialize (IH H2). clear H2.
      change (merged [] (k :: k2 :: keys)) with (if spaced k then k :: merged [] (k2 :: keys) else merged [k] (k2 :: keys)).
      destruct (spaced k) eqn:S1.
      * f_equal. exact IH.
      * destruct H1 as [H1|H1]; [discriminate|]. simpl in *. rewrite H1 in *. simpl in *. now rewrite IH.
Qed.

Theorem extract_tokens_good s : Forall good_key (extract_tokens s).
Proof.
  apply Forall_forall. intros t I. unfold extract_tokens in I. apply filter_In in I as [I N].
  apply nonempty_true in N. apply in_map_iff in I as (u & <- & I). repeat split; auto.
  - unfold strip. apply strip_trimmed, strip_is_trimmed.
  - intros Q. apply strip_incl in Q. assert (P := split1_parts 39%N s). rewrite Forall_forall in P. apply (P u); auto.
Qed.

(** ** Durations *)
Local Open Scope Z_scope.

Lemma print_part n label : (if n =? 0 then [] else print_Z n ++ label) = part n label.
Proof. reflexivity. Qed.

Lemma duration_step unit label sb r : 0 < unit -> 0 <= r ->
  duration_part unit label (sb, r)
  = (sb ++ part (if unit <? r then r / unit else 0) label, if unit <? r then r mod unit else r).
Proof.
  intros U R. unfold duration_part, part. destruct (Z.ltb_spec unit r) as [L|L].
  - assert (D : 1 <= r / unit) by (apply Z.div_le_lower_bound; lia).
    destruct (Z.eqb_spec (r / unit) 0); [lia|reflexivity].
  - simpl. now rewrite app_nil_r.
Qed.

Lemma unit_step U R : 0 < U -> 0 <= R ->
  let q := if U <? R then R / U else 0 in let r := if U <? R then R mod U else R in
  R = U * q + r /\ 0 <= r <= U /\ 0 <= q /\ (r = U <-> R = U).
Proof.
  intros HU HR. cbv zeta. destruct (Z.ltb_spec U R) as [L|L].
  - assert (A := Z.div_mod R U ltac:(lia)). assert (B := Z.mod_pos_bound R U HU).
    assert (C : 0 <= R / U) by (apply Z.div_pos; lia). lia.
  - lia.
Qed.

Lemma unit_count U n R q r : 0 < U -> 1 < n -> R = U * q + r -> 0 <= R <= U * n -> 0 <= r -> 0 <= q -> (r = U <-> R = U) -> r <= U ->
  q <= n /\ (q = n <-> R = U * n).
Proof.
  intros HU Hn E HR Hr Hq I Hr2. assert (Q : q <= n) by nia. split; auto. split.
  - intros ->. nia.
  - intros E2. assert (N : r <> U) by (intros F; apply I in F; nia). nia.
Qed.

Lemma mod_hit V c r k : 0 < c < V -> 0 <= r <= V -> (r + k * V) mod V = c <-> r = c.
Proof.
  intros Hc Hr. rewrite Z.mod_add by lia. destruct (Z.eq_dec r V) as [->|N].
  - rewrite Z.mod_same by lia. lia.
  - rewrite Z.mod_small by lia. tauto.
Qed.

Theorem duration_decomposition z : 0 <= z -> exists d h m s ms,
  format_duration z = part d (py " days, ") ++ part h (py " hours, ") ++ part m (py " minutes, ")
                      ++ part s (py " seconds, ") ++ print_Z ms ++ py " milliseconds"
  /\ z = d * 86400000 + h * 3600000 + m * 60000 + s * 1000 + ms
  /\ 0 <= d /\ 0 <= h <= 24 /\ 0 <= m <= 60 /\ 0 <= s <= 60 /\ 0 <= ms <= 1000
  /\ (h = 24 <-> z = 86400000) /\ (m = 60 <-> z mod 86400000 = 3600000)
  /\ (s = 60 <-> z mod 3600000 = 60000) /\ (ms = 1000 <-> z mod 60000 = 1000).
Proof.
  intros Z0. unfold format_duration.
  assert (U1 : 0 < 86400000) by reflexivity. assert (U2 : 0 < 3600000) by reflexivity.
  assert (U3 : 0 < 60000) by reflexivity. assert (U4 : 0 < 1000) by reflexivity.
  rewrite duration_step by auto. destruct (unit_step _ z U1 Z0) as (A1 & B1 & C1 & D1).
  set (d := if 86400000 <? z then z / 86400000 else 0) in *. set (r1 := if 86400000 <? z then z mod 86400000 else z) in *.
  clearbody d r1. destruct B1 as [B1 B1'].
  rewrite duration_step by auto. destruct (unit_step _ r1 U2 B1) as (A2 & B2 & C2 & D2).
  set (h := if 3600000 <? r1 then r1 / 3600000 else 0) in *. set (r2 := if 3600000 <? r1 then r1 mod 3600000 else r1) in *.
  clearbody h r2. destruct B2 as [B2 B2'].
  rewrite duration_step by auto. destruct (unit_step _ r2 U3 B2) as (A3 & B3 & C3 & D3).
  set (m := if 60000 <? r2 then r2 / 60000 else 0) in *. set (r3 := if 60000 <? r2 then r2 mod 60000 else r2) in *.
  clearbody m r3. destruct B3 as [B3 B3'].
  rewrite duration_step by auto. destruct (unit_step _ r3 U4 B3) as (A4 & B4 & C4 & D4).
  set (s := if 1000 <? r3 then r3 / 1000 else 0) in *. set (r4 := if 1000 <? r3 then r3 mod 1000 else r3) in *.
  clearbody s r4. destruct B4 as [B4 B4'].
  destruct (unit_count 3600000 24 r1 h r2) as [H1 H2]; try reflexivity; auto.
  destruct (unit_count 60000 60 r2 m r3) as [M1 M2]; try reflexivity; auto.
  destruct (unit_count 1000 60 r3 s r4) as [S1 S2]; try reflexivity; auto.
  exists d, h, m, s, r4. split; [rewrite <- !app_assoc; reflexivity|].
  split; [rewrite A1, A2, A3, A4; ring|].
  split; [exact C1|]. split; [auto|]. split; [auto|]. split; [auto|]. split; [auto|].
  split; [rewrite H2; exact D1|]. split.
  { rewrite M2. change (60000 * 60) with 3600000. rewrite D2, A1, Z.add_comm, Z.mul_comm.
    symmetry. apply mod_hit; [split; reflexivity|auto]. }
  split.
  { rewrite S2. change (1000 * 60) with 60000. rewrite D3, A1, A2.
    replace (86400000 * d + (3600000 * h + r2)) with (r2 + (24 * d + h) * 3600000) by ring.
    symmetry. apply mod_hit; [split; reflexivity|auto]. }
  rewrite D4, A1, A2, A3.
  replace (86400000 * d + (3600000 * h + (60000 * m + r3))) with (r3 + (1440 * d + 60 * h + m) * 60000) by ring.
  symmetry. apply mod_hit; [split; reflexivity|auto].
Qed.
