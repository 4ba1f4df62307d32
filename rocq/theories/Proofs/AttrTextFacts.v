(** The text of an attribute. *)
From Coq Require Import String NArith ZArith List Bool.
From Verif Require Import Base.PyBase Base.PyVal Base.PyDate Model.Attr Model.XesWrite Spec.XesWritten Spec.AttrText
  Proofs.BaseFacts Proofs.AttrInd Proofs.XesWrittenFacts.
Import ListNotations.

Section Text.
Context `{FIO : FloatIO}.

Definition member_text (m : attr) : res pystr := let! s := attr_str m in Ok (a_key m ++ py ":" ++ s).
Lemma attr_str_members a : is_collection (a_cls a) = true ->
  attr_str a = let! parts := map_res member_text (a_coll a) in Ok (py "[" ++ join (py ",") parts ++ py "]").
Proof.
  destruct a as [c k e v coll meta]. cbn [a_cls a_coll]. intros C.
  transitivity (let! parts := (fix items (l : list attr) : res (list pystr) :=
            match l with
            | [] => Ok []
            | x :: t => match attr_str x with
                        | Ok s => match items t with
                                  | Ok r => Ok ((a_key x ++ py ":" ++ s) :: r)
                                  | Raise e => Raise e
                                  end
                        | Raise e => Raise e
                        end
            end) coll in Ok (py "[" ++ join (py ",") parts ++ py "]")); [destruct c; try discriminate; reflexivity|].
  f_equal. clear. induction coll as [|x l IH]; [reflexivity|]. cbn [map_res]. unfold member_text at 1.
  destruct (attr_str x); [|reflexivity]. cbn [bind]. rewrite IH. destruct (map_res member_text l); reflexivity.
Qed.

Lemma text_shown a : (forall b, shown_in a b -> proper b) -> exists t, attr_str a = Ok t /\ shows a t.
Proof.
  induction a as [c k e v coll meta IC IM] using attr_ind2. intros P. destruct (is_collection c) eqn:C.
  - rewrite attr_str_members by exact C. cbn [a_coll].
    assert (L : exists ps, map_res member_text coll = Ok ps /\ listing coll (join (py ",") ps)).
    { assert (Q : forall m, In m coll -> forall b, shown_in m b -> proper b).
      { intros m Hm b Hb. apply P. eapply shown_member; eauto. }
      clear P. induction IC as [|m l H F IH]; [exists []; split; [reflexivity|constructor]|].
      destruct (H (Q m (or_introl eq_refl))) as (t & E & S). destruct IH as (ps & Ep & L). { intros x Hx. apply Q. now right. }
      cbn [map_res]. unfold member_text at 1. rewrite E. cbn [bind]. rewrite Ep. cbn [bind]. eexists. split; [reflexivity|].
      destruct l as [|m' l]; [injection Ep as <-; cbn [join]; now constructor|].
      cbn [map_res] in Ep. destruct (member_text m') as [p|]; [|discriminate]. cbn [bind] in Ep.
      destruct (map_res member_text l) as [ps'|]; [|discriminate]. injection Ep as <-.
      cbn [join]. rewrite <- !app_assoc. constructor; auto. }
    destruct L as (ps & -> & L). eexists. split; [reflexivity|]. constructor; auto.
  - destruct (proper_text c k e v coll meta C (P _ (shown_self _))) as (t & E & T). exists t. split; [exact E|]. now apply (shows_value _ (xes_tag c)).
Qed.


Lemma text_fails a x : attr_str a = Raise x <-> x = AttributeError /\ exists b, shown_in a b /\ undated b.
Proof.
  revert x. induction a as [c k e v coll meta IC IM] using attr_ind2. intros x. destruct (is_collection c) eqn:C.
  - rewrite attr_str_members by exact C. cbn [a_coll].
    assert (L : forall x, map_res member_text coll = Raise x <-> x = AttributeError /\ exists m b, In m coll /\ shown_in m b /\ undated b).
    { clear x IM. induction IC as [|m l H F IH]; intros x.
      - split; [discriminate|]. intros (_ & m & b & [] & _).
      - cbn [map_res]. unfold member_text at 1. destruct (attr_str m) as [t|y] eqn:E; cbn [bind].
        + assert (NM : forall b, shown_in m b -> ~ undated b).
          { intros b S U. assert (X : @Ok pystr t = Raise AttributeError) by (apply H; eauto). discriminate. }
          destruct (map_res member_text l) as [r|y] eqn:R.
          * cbn [bind]. split; [discriminate|]. intros (-> & m' & b & [<-|I] & S & U); [now destruct (NM b S)|].
            assert (X : @Ok (list pystr) r = Raise AttributeError) by (apply IH; split; [easy|]; exists m', b; auto). discriminate.
          * cbn [bind]. split.
            -- intros [= <-]. destruct (proj1 (IH y) eq_refl) as (-> & m' & b & I & S & U). split; [easy|]. exists m', b. split; [now right|]. split; [exact S|exact U].
            -- intros (-> & m' & b & [<-|I] & S & U); [now destruct (NM b S)|]. f_equal. enough (X : @Raise (list pystr) y = Raise AttributeError) by now injection X. apply IH. split; [easy|]. exists m', b. auto.
        + split.
          * intros [= <-]. destruct (proj1 (H y) eq_refl) as (-> & b & S & U). split; [easy|]. exists m, b. split; [now left|]. split; [exact S|exact U].
          * intros (-> & _). destruct (proj1 (H y) eq_refl) as (-> & _). reflexivity. }
    split.
    + destruct (map_res member_text coll) as [ps|y] eqn:E; cbn [bind]; [discriminate|]. intros [= <-].
      destruct (proj1 (L y) eq_refl) as (-> & m & b & I & S & U). split; [easy|]. exists b. split; [|easy]. eapply shown_member; eauto.
    + intros (-> & b & S & U). inversion S; subst.
      * destruct U as [U _]. cbn [a_cls] in U. subst c. discriminate.
      * cbn [a_coll] in *. rewrite (proj2 (L AttributeError)); [reflexivity|]. split; [easy|]. exists m, b. auto.
  - split.
    + destruct c; try discriminate. cbn [attr_str]. destruct v; intros [= <-]; (split; [easy|]); (eexists; split; [apply shown_self|]); (split; [easy|]); cbn; discriminate.
    + intros (-> & b & S & U). inversion S; subst; [|cbn [a_cls] in *; congruence]. destruct U as [U V]. cbn [a_cls a_val] in U, V. subst c.
      cbn [attr_str]. destruct v; try reflexivity. now destruct (V d).
Qed.

Lemma text_alike a b : looks_alike a b -> attr_str a = attr_str b.
Proof.
  revert b. induction a as [c k e v coll meta IC IM] using attr_ind2. intros b L. inversion L; subst.
  - destruct c; try discriminate; reflexivity.
  - rewrite !attr_str_members by assumption. cbn [a_coll]. f_equal.
    match goal with H : Forall2 _ coll ?l |- _ => rename H into F; clear - F IC end.
    revert IC. induction F as [|m m' l l' [K A] F IH]; intros IC; [reflexivity|]. inversion IC; subst.
    cbn [map_res]. unfold member_text at 1 3. rewrite (H1 m' A), K, IH by assumption. reflexivity.
Qed.

Lemma split_at_first (x : N) : forall u v r s, ~ In x u -> ~ In x v -> u ++ x :: r = v ++ x :: s -> u = v /\ r = s.
Proof.
  induction u as [|a u IH]; intros [|b v] r s U V E; cbn in E; injection E; intros; subst.
  - auto.
  - destruct V. now left.
  - destruct U. now left.
  - destruct (IH v r s) as [-> ->]; try assumption; try (split; reflexivity); intros I; [apply U|apply V]; now right.
Qed.
Lemma no_more (x : N) u v r : ~ In x u -> u = v ++ x :: r -> False.
Proof. intros U ->. apply U, in_elt. Qed.


Lemma joined_twice : forall l l' ps qs, comma_free l -> comma_free l' -> map_res member_text l = Ok ps -> map_res member_text l' = Ok qs ->
  join (py ",") ps = join (py ",") qs -> Forall2 (fun m m' => a_key m = a_key m' /\ attr_str m = attr_str m') l l'.
Proof.
  assert (ST : forall m p, member_text m = Ok p -> exists t, attr_str m = Ok t /\ p = a_key m ++ 58%N :: t).
  { intros m p. unfold member_text. destruct (attr_str m); [|discriminate]. intros [= <-]. eauto. }
  assert (CM : forall m t, (~ In 44 (a_key m) -> ~ In 44 t -> ~ In 44 (a_key m ++ 58 :: t))%N).
  { intros m t K T I. apply in_app_or in I as [I|[I|I]]; [auto|discriminate|auto]. }
  induction l as [|m l IH]; intros [|m' l'] ps qs C C' E E' J.
  - constructor.
  - injection E as <-. cbn [map_res] in E'. destruct (member_text m') as [p|] eqn:P; [|discriminate]. cbn [bind] in E'.
    destruct (map_res member_text l') as [qs'|]; [|discriminate]. injection E' as <-. destruct (ST _ _ P) as (t & _ & ->).
    destruct qs'; cbn [join] in J; destruct (a_key m'); discriminate.
  - injection E' as <-. cbn [map_res] in E. destruct (member_text m) as [p|] eqn:P; [|discriminate]. cbn [bind] in E.
    destruct (map_res member_text l) as [ps'|]; [|discriminate]. injection E as <-. destruct (ST _ _ P) as (t & _ & ->).
    destruct ps'; cbn [join] in J; destruct (a_key m); discriminate.
  - cbn [map_res] in E, E'. destruct (member_text m) as [p|] eqn:P; [|discriminate]. destruct (member_text m') as [p'|] eqn:P'; [|discriminate].
    cbn [bind] in E, E'. destruct (map_res member_text l) as [ps'|] eqn:R; [|discriminate]. destruct (map_res member_text l') as [qs'|] eqn:R'; [|discriminate].
    injection E as <-. injection E' as <-. destruct (ST _ _ P) as (t & T & ->). destruct (ST _ _ P') as (t' & T' & ->).
    destruct (C m t (or_introl eq_refl) T) as (K1 & K2 & K3). destruct (C' m' t' (or_introl eq_refl) T') as (K1' & K2' & K3').
    assert (HD : a_key m ++ 58%N :: t = a_key m' ++ 58%N :: t' /\ join (py ",") ps' = join (py ",") qs').
    { destruct ps' as [|p ps'], qs' as [|q qs']; cbn [join] in J.
      - auto.
      - exfalso. refine (no_more 44 _ _ _ _ J). now apply CM.
      - exfalso. symmetry in J. refine (no_more 44 _ _ _ _ J). now apply CM.
      - apply split_at_first in J; auto. }
    destruct HD as [HD TL]. apply split_at_first in HD as [HK HT]; auto. constructor.
    + split; [exact HK|]. now rewrite T, T', HT.
    + apply (IH l' ps' qs'); auto; intros x u I; [apply C|apply C']; now right.
Qed.

Lemma text_tells a b t : is_collection (a_cls a) = true -> is_collection (a_cls b) = true -> comma_free (a_coll a) -> comma_free (a_coll b) ->
  attr_str a = Ok t -> attr_str b = Ok t -> Forall2 (fun m n => a_key m = a_key n /\ attr_str m = attr_str n) (a_coll a) (a_coll b).
Proof.
  intros C C' F F' E E'. rewrite attr_str_members in E, E' by assumption.
  destruct (map_res member_text (a_coll a)) as [ps|] eqn:P; [|discriminate]. destruct (map_res member_text (a_coll b)) as [qs|] eqn:Q; [|discriminate].
  cbn [bind] in E, E'. injection E as <-. injection E' as E'. apply app_inv_tail in E'. symmetry in E'. now apply (joined_twice _ _ ps qs).
Qed.
End Text.
