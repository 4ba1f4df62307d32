(** Lines, cells and titles of CSV files. *)
From Coq Require Import String NArith ZArith List Bool Lia.
From Verif Require Import Base.PyBase Base.PyDate Base.PyVal Model.Attr Model.Log Model.Examples Spec.Transform Spec.Csv
  Proofs.BaseFacts Proofs.StrFacts Proofs.ExampleFacts Proofs.LifecycleFacts.
Import ListNotations.

(** ** Lines *)
Lemma lines_aux_word w acc s : ~ In 10%N w -> lines_aux acc (w ++ s) = lines_aux (rev w ++ acc) s.
Proof.
  revert acc. induction w as [|c w IH]; intros acc H; [reflexivity|]. cbn [app lines_aux].
  destruct (N.eqb_spec c 10) as [->|D]; [exfalso; apply H; now left|].
  rewrite IH by (intros X; apply H; now right). cbn [rev]. now rewrite <- app_assoc.
Qed.
Lemma lines_of_file s ls : lines_of s ls -> file_lines s = ls.
Proof.
  unfold file_lines. induction 1 as [|w N0 H|l s ls (w & H & ->) L IH].
  - reflexivity.
  - rewrite <- (app_nil_r w) at 1. rewrite lines_aux_word, app_nil_r by exact H. cbn.
    destruct (rev w) as [|c r] eqn:R; [|rewrite <- R, rev_involutive; reflexivity].
    apply (f_equal (@rev N)) in R. rewrite rev_involutive in R. now subst.
  - rewrite <- app_assoc, lines_aux_word, app_nil_r by exact H. cbn [app lines_aux]. rewrite N.eqb_refl.
    cbn [rev]. rewrite rev_involutive. now rewrite IH.
Qed.
Lemma lines_exist s : exists ls, lines_of s ls.
Proof.
  assert (G : forall s acc, ~ In 10%N acc -> exists ls, lines_of (rev acc ++ s) ls).
  { clear s. induction s as [|c s IH]; intros acc H.
    - rewrite app_nil_r. destruct acc as [|c r]; [exists []; constructor|]. exists [rev (c :: r)]. constructor.
      + intros E. apply (f_equal (@rev N)) in E. rewrite rev_involutive in E. discriminate.
      + now rewrite <- in_rev.
    - destruct (N.eq_dec c 10) as [->|D].
      + destruct (IH [] (fun x => x)) as [ls L]. exists ((rev acc ++ [10%N]) :: ls).
        replace (rev acc ++ 10%N :: s) with ((rev acc ++ [10%N]) ++ s) by now rewrite <- app_assoc.
        constructor; [|exact L]. exists (rev acc). split; [now rewrite <- in_rev|reflexivity].
      + destruct (IH (c :: acc)) as [ls L]; [intros [E|X]; auto|]. exists ls. cbn [rev] in L. now rewrite <- app_assoc in L. }
  apply (G s []). intros [].
Qed.
Theorem lines s ls : file_lines s = ls <-> lines_of s ls.
Proof.
  split; [|apply lines_of_file]. intros <-. destruct (lines_exist s) as [ls L]. now rewrite (lines_of_file s ls L).
Qed.

(** ** Cells *)
Lemma split_word w acc s : ~ In 59%N w -> split_aux (py ";") 0 acc (w ++ s) = split_aux (py ";") 0 (rev w ++ acc) s.
Proof.
  revert acc. induction w as [|c w IH]; intros acc H; [reflexivity|]. cbn [app split_aux].
  assert (S : starts_with (py ";") (c :: w ++ s) = false).
  { change (N.eqb 59 c && true = false).
    destruct (N.eqb_spec 59 c) as [E|D]; [exfalso; apply H; now left|reflexivity]. }
  rewrite S. rewrite IH by (intros X; apply H; now right). cbn [rev]. now rewrite <- app_assoc.
Qed.
Lemma split_cells cells : cells <> [] -> Forall (fun c => ~ In 59%N c) cells -> split (py ";") (join (py ";") cells) = cells.
Proof.
  unfold split. intros N0 F. induction F as [|c cells H F IH]; [congruence|].
  destruct cells as [|d cells].
  - cbn [join]. rewrite <- (app_nil_r c) at 1. rewrite split_word by exact H. cbn. now rewrite app_nil_r, rev_involutive.
  - rewrite join_cons by discriminate. rewrite split_word by exact H. rewrite app_nil_r.
    change (py ";" ++ join (py ";") (d :: cells)) with (59%N :: join (py ";") (d :: cells)).
    change (split_aux (py ";") 0 (rev c) (59%N :: join (py ";") (d :: cells)))
      with (rev (rev c) :: split_aux (py ";") 0 [] (join (py ";") (d :: cells))).
    rewrite rev_involutive. f_equal. apply IH. discriminate.
Qed.
Lemma split_clean s : forall acc, ~ In 59%N acc -> Forall (fun c => ~ In 59%N c) (split_aux (py ";") 0 acc s).
Proof.
  induction s as [|c s IH]; intros acc H.
  - cbn. constructor; [now rewrite <- in_rev|constructor].
  - change (split_aux (py ";") 0 acc (c :: s)) with
      (if N.eqb 59 c && true then rev acc :: split_aux (py ";") 0 [] s else split_aux (py ";") 0 (c :: acc) s).
    destruct (N.eqb_spec 59 c) as [E|D]; cbn [andb].
    + constructor; [now rewrite <- in_rev|]. apply IH. intros [].
    + apply IH. intros [E|X]; auto.
Qed.
Theorem cells line cs : split (py ";") line = cs <-> cells_of line cs.
Proof.
  split.
  - intros <-. split; [apply split_aux_nonnil|]. split; [apply split_clean; intros []|apply (join_split 59%N [])].
  - intros (N0 & F & <-). now apply split_cells.
Qed.

(** ** Titles *)
(** Replacing over text without the first letter of the word. *)
Lemma replace_other x old new w s : ~ In x w -> replace (x :: old) new (w ++ s) = w ++ replace (x :: old) new s.
Proof.
  unfold replace, split. intros H.
  assert (G : forall w acc, ~ In x w -> split_aux (x :: old) 0 acc (w ++ s) = split_aux (x :: old) 0 (rev w ++ acc) s).
  { clear w H. induction w as [|c w IH]; intros acc H; [reflexivity|]. cbn [app split_aux].
    assert (S : starts_with (x :: old) (c :: w ++ s) = false).
    { cbn. destruct (N.eqb_spec x c) as [->|D]; [exfalso; apply H; now left|reflexivity]. }
    rewrite S. rewrite IH by (intros X; apply H; now right). cbn [rev]. now rewrite <- app_assoc. }
  rewrite G, app_nil_r by exact H.
  assert (A : forall acc s, exists u r, split_aux (x :: old) 0 acc s = (rev acc ++ u) :: r /\ split_aux (x :: old) 0 [] s = u :: r).
  { clear. intros acc s. revert acc. induction s as [|c s IH]; intros acc.
    - exists [], []. cbn. now rewrite app_nil_r.
    - cbn [split_aux]. destruct (starts_with (x :: old) (c :: s)).
      + exists []. eexists. rewrite app_nil_r. split; reflexivity.
      + destruct (IH (c :: acc)) as (u & r & E1 & E2). destruct (IH [c]) as (u' & r' & E3 & E4).
        rewrite E2 in E4. injection E4 as <- <-. exists (c :: u), r. rewrite E1, E3. cbn. split; [now rewrite <- app_assoc|reflexivity]. }
  destruct (A (rev w) s) as (u & r & -> & ->). rewrite rev_involutive. destruct r as [|v r]; cbn [join].
  - reflexivity.
  - now rewrite <- app_assoc.
Qed.
Lemma replace_word x old new s : replace (x :: old) new ((x :: old) ++ s) = new ++ replace (x :: old) new s.
Proof.
  unfold replace, split. change ((x :: old) ++ s) with (x :: (old ++ s)). cbn [split_aux].
  assert (S : starts_with (x :: old) (x :: old ++ s) = true).
  { cbn. rewrite N.eqb_refl. cbn. induction old as [|c o IH]; [reflexivity|]. cbn. now rewrite N.eqb_refl. }
  rewrite S. cbn [List.length]. rewrite Nat.sub_succ, Nat.sub_0_r, split_skip.
  now rewrite join_cons by apply split_aux_nonnil.
Qed.
Lemma replace_nil x old new : replace (x :: old) new [] = [].
Proof. reflexivity. Qed.
(** A letter that only starts the word. *)
Lemma replace_letter x y old new c s : c <> y -> replace (x :: y :: old) new (x :: c :: s) = x :: replace (x :: y :: old) new (c :: s).
Proof.
  intros D. unfold replace, split.
  assert (S : starts_with (x :: y :: old) (x :: c :: s) = false).
  { cbn. rewrite N.eqb_refl. cbn. now destruct (N.eqb_spec y c) as [->|]. }
  assert (A : forall acc s, exists u r, split_aux (x :: y :: old) 0 acc s = (rev acc ++ u) :: r /\ split_aux (x :: y :: old) 0 [] s = u :: r).
  { clear. intros acc s. revert acc. induction s as [|c s IH]; intros acc.
    - exists [], []. cbn. now rewrite app_nil_r.
    - cbn [split_aux]. destruct (starts_with (x :: y :: old) (c :: s)).
      + exists []. eexists. rewrite app_nil_r. split; reflexivity.
      + destruct (IH (c :: acc)) as (u & r & E1 & E2). destruct (IH [c]) as (u' & r' & E3 & E4).
        rewrite E2 in E4. injection E4 as <- <-. exists (c :: u), r. rewrite E1, E3. cbn. split; [now rewrite <- app_assoc|reflexivity]. }
  change (split_aux (x :: y :: old) 0 [] (x :: c :: s)) with
    (if starts_with (x :: y :: old) (x :: c :: s) then rev [] :: split_aux (x :: y :: old) (List.length (x :: y :: old) - 1) [] (c :: s)
     else split_aux (x :: y :: old) 0 [x] (c :: s)).
  rewrite S. destruct (A [x] (c :: s)) as (u & r & -> & ->). cbn [rev app]. destruct r; reflexivity.
Qed.

Definition first_letter (u : unit_of_time) : N := hd 0%N (in_title u).
Definition same_unit (u v : unit_of_time) : bool :=
  match u, v with Day, Day | Month, Month | Year, Year | Hour, Hour | Minute, Minute => true | _, _ => false end.
Definition written (u : unit_of_time) (wr : unit_of_time -> pystr) (v : unit_of_time) : pystr :=
  if same_unit u v then in_format v else wr v.
Definition starts_other (u : unit_of_time) (s : pystr) : Prop := match s with [] => True | c :: _ => c <> first_letter u end.
Definition kept_by (u : unit_of_time) (w : pystr) : Prop :=
  forall s, starts_other u s -> replace (in_title u) (in_format u) (w ++ s) = w ++ replace (in_title u) (in_format u) s.

Lemma kept_free u w : ~ In (first_letter u) w -> kept_by u w.
Proof. intros H s _. destruct u; exact (replace_other _ _ _ _ _ H). Qed.
Lemma kept_month : kept_by Minute (py "%m").
Proof.
  intros s S. change (py "%m" ++ s) with (py "%" ++ 109%N :: s).
  change (in_title Minute) with [109%N; 109%N]. rewrite replace_other by (cbn; intros [E|[]]; discriminate).
  destruct s as [|c s]; [reflexivity|]. rewrite replace_letter by exact S. reflexivity.
Qed.
Lemma other_free u s : other_text s -> ~ In (first_letter u) s.
Proof. intros O I. unfold other_text in O. rewrite Forall_forall in O. apply (O _ I). destruct u; cbn; tauto. Qed.
Lemma separated_more u s t : separated ((u, s) :: t) -> other_text s /\ separated t /\ (t <> [] -> s <> []).
Proof. cbn. destruct t as [|p t]; [cbn; tauto|]. intros (A & B & C). repeat split; auto. Qed.

Lemma replace_unit u wr l tail : wr u = in_title u -> (forall v, v <> u -> kept_by u (wr v)) ->
  separated l -> starts_other u tail ->
  replace (in_title u) (in_format u) (flat_map (fun p => wr (fst p) ++ snd p) l ++ tail)
  = flat_map (fun p => written u wr (fst p) ++ snd p) l ++ replace (in_title u) (in_format u) tail.
Proof.
  intros W K. induction l as [|[v s] l IH]; intros S T; [reflexivity|].
  apply separated_more in S. destruct S as (O & S & N0). cbn [flat_map fst snd]. rewrite <- !app_assoc.
  assert (R : replace (in_title u) (in_format u) (s ++ flat_map (fun p => wr (fst p) ++ snd p) l ++ tail)
              = s ++ flat_map (fun p => written u wr (fst p) ++ snd p) l ++ replace (in_title u) (in_format u) tail).
  { rewrite <- IH by auto. apply (other_free u) in O. destruct u; exact (replace_other _ _ _ _ _ O). }
  assert (B : starts_other u (s ++ flat_map (fun p => wr (fst p) ++ snd p) l ++ tail)).
  { destruct s as [|c s].
    - destruct l as [|p l]; [exact T|]. exfalso. apply N0; [discriminate|reflexivity].
    - cbn. intros ->. exact (other_free u _ O (or_introl eq_refl)). }
  unfold written at 1. destruct (same_unit u v) eqn:E.
  - assert (v = u) as -> by (destruct u, v; try discriminate; reflexivity). rewrite W, <- R.
    destruct u; exact (replace_word _ _ _ _).
  - rewrite (K v) by (auto; intros ->; destruct u; discriminate). now rewrite R.
Qed.

Lemma other_lines k : starts_other Day (repeat 10%N k) /\ starts_other Month (repeat 10%N k) /\ starts_other Year (repeat 10%N k)
  /\ starts_other Hour (repeat 10%N k) /\ starts_other Minute (repeat 10%N k).
Proof. destruct k; cbn; repeat split; auto; discriminate. Qed.
Lemma replace_lines u k : replace (in_title u) (in_format u) (repeat 10%N k) = repeat 10%N k.
Proof.
  rewrite <- (app_nil_r (repeat 10%N k)).
  assert (H : ~ In (first_letter u) (repeat 10%N k)) by (intros I; apply repeat_spec in I; destruct u; discriminate).
  destruct u; (etransitivity; [exact (replace_other _ _ _ _ [] H)|reflexivity]).
Qed.

Lemma replace_units u wr before l k : wr u = in_title u -> (forall v, v <> u -> kept_by u (wr v)) ->
  other_text before -> separated l ->
  replace (in_title u) (in_format u) (title_of wr before l ++ repeat 10%N k) = title_of (written u wr) before l ++ repeat 10%N k.
Proof.
  intros W K O S. unfold title_of. rewrite <- !app_assoc.
  rewrite <- (replace_lines u k) at 2. rewrite <- replace_unit; auto.
  - apply (other_free u) in O. destruct u; exact (replace_other _ _ _ _ _ O).
  - destruct (other_lines k) as (A & B & C & D & E). destruct u; assumption.
Qed.

Lemma contains_app_l w u v : contains w u = true -> contains w (u ++ v) = true.
Proof.
  intros H. apply contains_spec in H. destruct H as (a & b & ->). apply contains_spec. exists a, (b ++ v). now rewrite <- !app_assoc.
Qed.

Lemma drop_lines k s : dropwhile (N.eqb 10) (repeat 10%N k ++ s) = dropwhile (N.eqb 10) s.
Proof. induction k; [reflexivity|]. cbn. exact IHk. Qed.
Lemma drop_none s : ~ In 10%N s -> dropwhile (N.eqb 10) s = s.
Proof. destruct s as [|c s]; [reflexivity|]. intros H. cbn [dropwhile]. destruct (N.eqb_spec 10 c) as [E|D]; [exfalso; apply H; now left|reflexivity]. Qed.
Lemma rev_lines k : rev (repeat 10%N k) = repeat 10%N k.
Proof. induction k as [|k IH]; [reflexivity|]. cbn. rewrite IH. symmetry. exact (repeat_cons k 10%N). Qed.
Lemma strip_lines s k : ~ In 10%N s -> strip_by (N.eqb 10) (s ++ repeat 10%N k) = s.
Proof.
  intros H. unfold strip_by. destruct s as [|c s].
  - cbn [app]. rewrite <- (app_nil_r (repeat 10%N k)), drop_lines. reflexivity.
  - replace (dropwhile (N.eqb 10) ((c :: s) ++ repeat 10%N k)) with ((c :: s) ++ repeat 10%N k).
    + rewrite rev_app_distr, rev_lines, drop_lines, drop_none; [apply rev_involutive|]. now rewrite <- in_rev.
    + cbn [app dropwhile]. destruct (N.eqb_spec 10 c) as [E|D]; [exfalso; apply H; now left|reflexivity].
Qed.
Lemma format_lines before l : other_text before -> separated l -> ~ In 10%N (title_of in_format before l).
Proof.
  intros O S I. unfold title_of in I. apply in_app_or in I.
  assert (X : forall s, other_text s -> ~ In 10%N s).
  { intros s H J. unfold other_text in H. rewrite Forall_forall in H. apply (H _ J). cbn. tauto. }
  destruct I as [I|I]; [exact (X _ O I)|].
  induction l as [|[u s] l IH]; [exact I|]. apply separated_more in S. destruct S as (A & B & _).
  cbn [flat_map fst snd] in I. rewrite !in_app_iff in I. destruct I as [[I|I]|I]; [|exact (X _ A I)|auto].
  destruct u; cbn in I; intuition discriminate.
Qed.
Lemma has_year before l tail : In Year (map fst l) -> contains (py "yyyy") (title_of in_title before l ++ tail) = true.
Proof.
  intros I. apply in_map_iff in I. destruct I as ([u s] & E & I). cbn in E. subst u.
  apply in_split in I. destruct I as (a & b & ->). apply contains_spec. unfold title_of. rewrite flat_map_app. cbn [flat_map fst snd in_title].
  exists (before ++ flat_map (fun p => in_title (fst p) ++ snd p) a).
  exists (s ++ flat_map (fun p => in_title (fst p) ++ snd p) b ++ tail). now rewrite <- !app_assoc.
Qed.
Theorem formats before l k : other_text before -> separated l -> In Year (map fst l) ->
  column_type (title_of in_title before l ++ repeat 10%N k) = title_of in_format before l.
Proof.
  intros O S Y. unfold column_type. rewrite has_year by exact Y.
  change (replace (py "dd") (py "%d")) with (replace (in_title Day) (in_format Day)).
  change (replace (py "MM") (py "%m")) with (replace (in_title Month) (in_format Month)).
  change (replace (py "yyyy") (py "%Y")) with (replace (in_title Year) (in_format Year)).
  change (replace (py "HH") (py "%H")) with (replace (in_title Hour) (in_format Hour)).
  change (replace (py "mm") (py "%M")) with (replace (in_title Minute) (in_format Minute)).
  do 5 (rewrite replace_units;
    [|reflexivity|intros v V; destruct v; try congruence; first [exact kept_month|apply kept_free; cbn; intuition discriminate]|exact O|exact S]).
  replace (title_of _ before l) with (title_of in_format before l).
  - apply strip_lines. now apply format_lines.
  - unfold title_of. f_equal. clear. induction l as [|[u s] l IH]; [reflexivity|]. cbn [flat_map fst snd]. rewrite IH. now destruct u.
Qed.

(** ** The end of a line *)
Lemma join_last cells c : forall w, join (py ";") (cells ++ [c]) = w ++ [10%N] -> exists s, c = s ++ [10%N].
Proof.
  induction cells as [|d cells IH]; intros w E; [exists w; exact E|].
  cbn [app] in E. rewrite join_cons in E by (destruct cells; discriminate).
  destruct (join (py ";") (cells ++ [c])) as [|y j] eqn:J.
  - rewrite app_nil_r in E. apply app_inj_tail in E. destruct E as [_ E]. discriminate.
  - destruct (@exists_last _ (y :: j)) as (j' & x & Q); [discriminate|]. rewrite Q in *. rewrite !app_assoc in E. apply app_inj_tail in E. destruct E as [_ ->]. exact (IH _ eq_refl).
Qed.
Lemma skipn_last {A} n (l : list A) : (n < List.length l)%nat -> exists m x, l = m ++ [x] /\ skipn n l = skipn n m ++ [x].
Proof.
  intros H. destruct l as [|x m _] using rev_ind; [cbn in H; lia|]. exists m, x. split; [reflexivity|].
  rewrite app_length in H. cbn in H. rewrite skipn_app. replace (n - List.length m)%nat with 0%nat by lia. reflexivity.
Qed.
Lemma combine_snoc {A B} (l : list A) (x : A) (m : list B) y : List.length l = List.length m -> combine (l ++ [x]) (m ++ [y]) = combine l m ++ [(x, y)].
Proof. revert m. induction l as [|a l IH]; intros [|b m] H; try discriminate; [reflexivity|]. cbn. rewrite IH by (cbn in H; lia). reflexivity. Qed.
Theorem line_end strp draw (types : list pystr) n (w : pystr) cells title e :
  cells_of (w ++ [10%N]) cells -> List.length cells = List.length types -> (2 < List.length types)%nat ->
  last types [] = title -> title = py "Activity" \/ title = py "Resource" ->
  convert_line strp draw types n cells = Ok e ->
  exists s, sget title (ev_attrs e) = Some (mk_attr CLiteral title None (PStr (s ++ [10%N])) [] []).
Proof.
  intros (_ & _ & J) L M T K H. unfold convert_line in H.
  destruct (convert_fields strp (skipn 2 types) (skipn 2 cells) []) as [m|] eqn:E; [|discriminate].
  injection H as <-. cbn [ev_attrs]. destruct (convert_fields_get strp _ _ _ _ E) as (l & El & Len & ->).
  destruct (skipn_last 2 types M) as (ts & t & -> & St). destruct (skipn_last 2 cells) as (cs & c & -> & Sc); [now rewrite L|].
  rewrite last_last in T. subst t. rewrite !app_length in L. cbn in L.
  rewrite St, Sc in El. apply convert_cells in El. rewrite combine_snoc in El by (rewrite !skipn_length; lia).
  apply Forall2_app_inv_l in El. destruct El as (l1 & l2 & _ & F2 & ->).
  inversion F2 as [|? a ? l3 C F3]; subst. inversion F3; subst. rewrite fold_sset_find, rev_app_distr. cbn [rev app find].
  destruct (join_last cs c w J) as [s ->]. exists s.
  inversion C; subst; [|tauto|tauto]. cbn [a_key]. now rewrite str_eqb_refl.
Qed.
