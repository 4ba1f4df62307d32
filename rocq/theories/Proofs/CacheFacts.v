(** The extension cache. *)
From Coq Require Import String NArith ZArith List Bool Lia.
From Verif Require Import Base.PyBase Base.Codec Model.Registry Model.Cache Spec.Folders Proofs.BaseFacts Proofs.StrFacts.
Import ListNotations.

Lemma path_eqb_eq a : forall b, path_eqb a b = true <-> a = b.
Proof.
  induction a as [| x a IH]; intros [| y b]; cbn; split; intros H; try congruence.
  - apply andb_prop in H. destruct H as [H1 H2]. apply str_eqb_eq in H1. apply IH in H2. congruence.
  - injection H as -> ->. rewrite str_eqb_refl. now apply IH.
Qed.
Lemma path_eqb_refl a : path_eqb a a = true. Proof. now apply path_eqb_eq. Qed.

Lemma parts_app w s c t : is_sep w c = true -> forall acc,
  parts_from w acc (s ++ c :: t) = parts_from w acc s ++ parts_from w [] t.
Proof.
  intros C. induction s as [| d s IH]; intros acc; cbn [app parts_from].
  - rewrite C. reflexivity.
  - destruct (is_sep w d); [rewrite IH; now rewrite app_assoc | apply IH].
Qed.

(** ** Folders *)

Lemma prefixes_in p q : In q (prefixes p) <-> q <> [] /\ exists r, p = q ++ r.
Proof.
  revert q. induction p as [| x p IH]; intros q; cbn [prefixes].
  - split; [intros [] |]. intros [N [r E]]. destruct q; [congruence | discriminate].
  - cbn [In]. rewrite in_map_iff. split.
    + intros [<- | (q' & <- & H)]; [split; [discriminate | now exists p] |].
      apply IH in H. destruct H as [N [r ->]]. split; [discriminate |]. now exists r.
    + intros [N [r E]]. destruct q as [| y q]; [congruence |]. injection E as <- ->.
      destruct q as [| z q]; [now left |]. right. exists (z :: q). split; [reflexivity |].
      apply IH. split; [discriminate | now exists r].
Qed.

Definition added (fs : fsys) (p : path) : list path := filter (fun q => negb (present fs q)) (prefixes p).

Lemma is_dir_iff fs p : is_dir fs p = true <-> p = [] \/ In p (f_dirs fs).
Proof.
  unfold is_dir. destruct p as [| x p]; [intuition |]. rewrite existsb_exists. split.
  - intros (q & I & E). apply path_eqb_eq in E. subst q. now right.
  - intros [H | H]; [discriminate |]. exists (x :: p). split; [exact H | apply path_eqb_refl].
Qed.

Lemma made fs p fs' : makedirs fs p = Ok fs' ->
  present fs p = false /\ f_files fs' = f_files fs
  /\ forall q, is_dir fs' q = true <-> is_dir fs q = true \/ exists r, p = q ++ r.
Proof.
  unfold makedirs. destruct (present fs p) eqn:P; [discriminate |]. cbn [orb].
  destruct (existsb (is_file fs) (prefixes p)) eqn:X; [discriminate |]. intros [= <-].
  split; [reflexivity |]. split; [reflexivity |]. intros q. rewrite !is_dir_iff. cbn [f_dirs].
  rewrite in_app_iff, filter_In, prefixes_in. split.
  - intros [H | [H | [[_ H] _]]]; auto.
  - intros [[H | H] | [r E]]; auto. destruct q as [| x q]; [now left |]. right.
    destruct (is_dir fs (x :: q)) eqn:D; [apply is_dir_iff in D; destruct D as [D | D]; [discriminate | now left] |].
    right. split; [split; [discriminate | now exists r] |]. unfold present. rewrite D. cbn [orb].
    destruct (is_file fs (x :: q)) eqn:F; [| reflexivity]. exfalso. rewrite <- not_true_iff_false in X. apply X.
    apply existsb_exists. exists (x :: q). split; [| exact F]. apply prefixes_in. split; [discriminate | now exists r].
Qed.

Lemma file_at_files fs fs' p : f_files fs' = f_files fs -> file_at fs' p = file_at fs p.
Proof. unfold file_at. now intros ->. Qed.

Lemma made_sound fs p fs' : sound fs -> makedirs fs p = Ok fs' -> sound fs'.
Proof.
  intros S M. destruct (made fs p fs' M) as (_ & F & D). intros q x. unfold present, is_file.
  rewrite (file_at_files fs fs' _ F), orb_true_iff, !D. intros [[H | [r E]] | H].
  - left. apply (S q x). unfold present. now rewrite H.
  - right. exists (x :: r). rewrite E, <- app_assoc. reflexivity.
  - left. apply (S q x). unfold present, is_file. now rewrite H, orb_true_r.
Qed.

(** Nothing lies in a folder that is missing. *)
Lemma missing_below fs p : sound fs -> is_dir fs p = false -> forall x r, present fs (p ++ x :: r) = false.
Proof.
  intros S D x r. destruct (present fs (p ++ x :: r)) eqn:P; [| reflexivity]. exfalso.
  revert x P. induction r as [| y r IH] using rev_ind; intros x P.
  - rewrite (S p x P) in D. discriminate.
  - assert (is_dir fs (p ++ x :: r) = true).
    { apply (S _ y). rewrite <- app_assoc. exact P. }
    apply (IH x). unfold present. now rewrite H.
Qed.

(** A new folder inside of a new folder. *)
Lemma made_inside fs p fs' x : sound fs -> makedirs fs p = Ok fs' -> exists fs'', makedirs fs' (p ++ [x]) = Ok fs''.
Proof.
  intros S M. pose proof (made_sound fs p fs' S M) as S'. destruct (made fs p fs' M) as (P & F & D).
  assert (DP : is_dir fs p = false) by (unfold present in P; now apply orb_false_iff in P).
  assert (NF : forall q, is_file fs' q = is_file fs q) by (intros q; unfold is_file; now rewrite (file_at_files fs fs' q F)).
  unfold makedirs. assert (present fs' (p ++ [x]) = false) as ->.
  { unfold present. rewrite NF. apply orb_false_iff. split.
    - rewrite <- not_true_iff_false, D. intros [H | [r E]].
      + pose proof (missing_below fs p S DP x []) as Q. unfold present in Q. rewrite H in Q. discriminate.
      + apply (f_equal (@List.length _)) in E. rewrite !app_length in E. cbn in E. lia.
    - pose proof (missing_below fs p S DP x []) as Q. unfold present in Q. now apply orb_false_iff in Q. }
  cbn [orb]. assert (existsb (is_file fs') (prefixes (p ++ [x])) = false) as ->; [| eauto].
  rewrite <- not_true_iff_false, existsb_exists. intros (q & I & H). rewrite NF in H.
  apply prefixes_in in I. destruct I as [NE [r E]].
  destruct r as [| y r] using rev_ind.
  - rewrite app_nil_r in E. subst q. pose proof (missing_below fs p S DP x []) as Q. unfold present in Q.
    rewrite H, orb_true_r in Q. discriminate.
  - clear IHr. rewrite app_assoc in E. apply app_inj_tail in E. destruct E as [E _]. subst p.
    unfold makedirs in M. destruct (present fs (q ++ r)); [discriminate |]. cbn [orb] in M.
    assert (X : existsb (is_file fs) (prefixes (q ++ r)) = true).
    { apply existsb_exists. exists q. split; [| exact H]. apply prefixes_in. split; [exact NE | now exists r]. }
    rewrite X in M. discriminate.
Qed.

Lemma flat_map_nil {A B} (f : A -> list B) l : (forall x, In x l -> f x = []) -> flat_map f l = [].
Proof. induction l as [| a l IH]; cbn; intros H; [reflexivity |]. rewrite (H a (or_introl eq_refl)), IH; auto. Qed.

Section Facts.
Context (platform : pystr) (profile : option pystr) (expanduser : pystr -> pystr).
Notation win := (on_windows platform).

(** The support folder. *)
Definition support (v : pystr) : path :=
  parts win (if win then expanduser v ++ py "\" ++ py "OpenXES"
             else if on_mac platform then expanduser v ++ py "/Library/Application Support/" ++ py "OpenXES"
             else expanduser v ++ py "/." ++ py "OpenXES").

Lemma cache_folder_cases fs : sound fs ->
  match profile with
  | None => cache_folder platform profile expanduser fs = (fs, Raise TypeError)
  | Some v => cache_folder platform profile expanduser fs = (fs, Raise OSError)
              /\ (present fs (support v) || existsb (is_file fs) (prefixes (support v))) = true
              \/ exists fs' fs'' dir, makedirs fs (support v) = Ok fs'
                 /\ makedirs fs' (support v ++ [py "ExtensionCache"]) = Ok fs''
                 /\ parts win dir = support v ++ [py "ExtensionCache"]
                 /\ cache_folder platform profile expanduser fs = (fs'', Ok dir)
  end.
Proof.
  intros S. unfold cache_folder, support_folder. destruct profile as [v |]; [| reflexivity].
  set (dir := if win then _ else _). fold (support v) in *.
  change (parts win dir) with (support v).
  destruct (makedirs fs (support v)) as [fs' | e] eqn:M.
  - right. cbn [bind]. destruct (made_inside fs (support v) fs' (py "ExtensionCache") S M) as [fs'' M'].
    assert (E : parts win ((dir ++ (if win then py "\" else py "/")) ++ py "ExtensionCache") = support v ++ [py "ExtensionCache"]).
    { unfold parts. rewrite <- app_assoc. destruct win eqn:W.
      - change (py "\" ++ py "ExtensionCache") with (92%N :: py "ExtensionCache").
        rewrite parts_app by reflexivity. unfold support, parts. fold dir. rewrite W. reflexivity.
      - change (py "/" ++ py "ExtensionCache") with (47%N :: py "ExtensionCache").
        rewrite parts_app by reflexivity. unfold support, parts. fold dir. rewrite W. reflexivity. }
    exists fs', fs''. eexists. split; [reflexivity |]. split; [exact M' |].
    split; [exact E |]. rewrite E, M'. reflexivity.
  - left. unfold makedirs in M. destruct (_ || _); [| discriminate]. injection M as <-. auto.
Qed.

Notation folder := (cache_folder platform profile expanduser).

(** The folder of an earlier call is in the way. *)
Definition blocked (fs : fsys) : Prop := forall v, profile = Some v -> is_dir fs (support v) = true.

Lemma folder_blocked fs : sound fs -> blocked fs -> exists e, folder fs = (fs, Raise e).
Proof.
  intros S B. pose proof (cache_folder_cases fs S) as H. unfold blocked in B. destruct profile as [v |]; [| eauto].
  destruct H as [[H _] | (fs' & fs'' & dir & M & _)]; [eauto |]. exfalso.
  destruct (made _ _ _ M) as [P _]. unfold present in P. rewrite (B v eq_refl) in P. discriminate.
Qed.

Lemma folder_fails fs fs' e : sound fs -> folder fs = (fs', Raise e) -> fs' = fs.
Proof.
  intros S F. pose proof (cache_folder_cases fs S) as H. destruct profile as [v |]; [| congruence].
  destruct H as [[H _] | (f1 & f2 & dir & _ & _ & _ & H)]; congruence.
Qed.

Lemma name_in_some p q x : In x (name_in p q) -> q = p ++ [x].
Proof.
  unfold name_in. destruct (path_eqb _ p) eqn:E; [| intros []]. apply path_eqb_eq in E.
  destruct (skipn (List.length p) q) as [| y [| z r]] eqn:K; try (intros []; fail).
  intros [<- | []]. rewrite <- E, <- K at 1. rewrite <- (firstn_skipn (List.length p) q) at 1. now rewrite K, E.
Qed.

Lemma folder_made fs fs' dir : sound fs -> folder fs = (fs', Ok dir) ->
  sound fs' /\ f_files fs' = f_files fs /\ blocked fs' /\ listdir fs' (parts win dir) = []
  /\ (forall q, is_dir fs q = true -> is_dir fs' q = true) /\ is_dir fs' (parts win dir) = true.
Proof.
  intros S F. pose proof (cache_folder_cases fs S) as H. unfold blocked. destruct profile as [v |]; [| congruence].
  destruct H as [[H _] | (f1 & f2 & dir' & M1 & M2 & E & H)]; [congruence |].
  rewrite F in H. injection H as -> ->. pose proof (made_sound _ _ _ S M1) as S1. pose proof (made_sound _ _ _ S1 M2) as S2.
  destruct (made _ _ _ M1) as (P1 & F1 & D1). destruct (made _ _ _ M2) as (P2 & F2 & D2).
  split; [exact S2 |]. split; [congruence |]. split.
  { intros w [= <-]. apply D2. left. apply D1. right. exists []. now rewrite app_nil_r. }
  split.
  { rewrite E. unfold listdir. apply flat_map_nil. intros q I. destruct (name_in _ q) as [| x r] eqn:NI; [reflexivity |]. exfalso.
    assert (Q : q = (support v ++ [py "ExtensionCache"]) ++ [x]) by (apply name_in_some; rewrite NI; now left).
    assert (DP : is_dir fs (support v) = false) by (unfold present in P1; now apply orb_false_iff in P1).
    rewrite <- app_assoc in Q. pose proof (missing_below fs (support v) S DP (py "ExtensionCache") [x]) as MB.
    cbn [app] in Q, MB. rewrite <- Q in MB. unfold present in MB. apply orb_false_iff in MB. destruct MB as [MD MF].
    apply in_app_iff in I. destruct I as [I | I].
    - assert (ID : is_dir f2 q = true) by (apply is_dir_iff; now right). apply D2 in ID.
      destruct ID as [ID | [r' L]].
      + apply D1 in ID. destruct ID as [ID | [r' L]]; [congruence |].
        apply (f_equal (@List.length _)) in L. rewrite Q, !app_length in L. cbn in L. lia.
      + apply (f_equal (@List.length _)) in L. rewrite Q, !app_length in L. cbn in L. lia.
    - rewrite F2, F1 in I. unfold is_file, file_at in MF. clear - I MF. induction (f_files fs) as [| [k b] l IH]; [easy |].
      cbn in *. destruct (path_eqb q k) eqn:EK; [discriminate |]. destruct I as [-> | I]; [now rewrite path_eqb_refl in EK | auto]. }
  split; [intros q D; apply D2; left; apply D1; now left |].
  apply D2. right. exists []. now rewrite app_nil_r.
Qed.

Lemma opened fs p fs' : open_w fs p = Ok fs' -> f_dirs fs' = f_dirs fs /\ f_files fs' = dict_set path_eqb p [] (f_files fs)
  /\ exists q x, p = q ++ [x] /\ is_dir fs q = true.
Proof.
  unfold open_w. destruct (rev p) as [| x r] eqn:E; [discriminate |]. destruct (is_dir fs p); [discriminate |]. cbn [orb].
  destruct (is_dir fs (rev r)) eqn:D; [| discriminate]. intros [= <-]. cbn. split; [reflexivity |]. split; [reflexivity |].
  exists (rev r), x. split; [| exact D]. rewrite <- (rev_involutive p), E. reflexivity.
Qed.

Lemma file_set (l : list (path * bytes)) p q b : dict_get path_eqb q (dict_set path_eqb p b l)
  = if path_eqb q p then Some b else dict_get path_eqb q l.
Proof.
  induction l as [| [k c] l IH]; cbn; [reflexivity |]. destruct (path_eqb p k) eqn:E; cbn.
  - apply path_eqb_eq in E. subst k. destruct (path_eqb q p); reflexivity.
  - rewrite IH. destruct (path_eqb q k) eqn:EQ; [| reflexivity]. destruct (path_eqb q p) eqn:EP; [| reflexivity].
    apply path_eqb_eq in EQ, EP. subst. now rewrite path_eqb_refl in E.
Qed.

Lemma opened_sound fs p fs' : sound fs -> open_w fs p = Ok fs' -> sound fs'.
Proof.
  intros S O. destruct (opened _ _ _ O) as (D & F & q & x & -> & DQ). intros r y.
  assert (ED : forall z, is_dir fs' z = is_dir fs z) by (intros z; unfold is_dir; now rewrite D).
  unfold present, is_file, file_at. rewrite !ED, F, file_set. destruct (path_eqb (r ++ [y]) (q ++ [x])) eqn:E.
  - apply path_eqb_eq in E. apply app_inj_tail in E. destruct E as [-> _]. intros _. exact DQ.
  - intros H. apply (S r y). exact H.
Qed.

Section Steps.
Context {E : Type} (uri_of : E -> pystr) (here : path) (old : path -> bool) (parse : bytes -> res E).
Notation step := (cache_step platform profile expanduser uri_of here old parse).
Notation run := (cache_run platform profile expanduser uri_of here old parse).

Lemma step_cases fs m c : sound fs -> exists fs' r, step (fs, m) c = ((fs', m), r)
  /\ sound fs' /\ nothing_written fs fs' /\ (blocked fs -> blocked fs' /\ r <> Ok tt) /\ (r = Ok tt -> blocked fs').
Proof.
  intros S. assert (ID : nothing_written fs fs) by (intros p b H; now right).
  destruct c as [u net |]; cbn [cache_step].
  - unfold cache_extension. destruct (rev u) as [| c r].
    { exists fs, (Raise IndexError). repeat split; auto; discriminate. }
    destruct (N.eqb c 47). { exists fs, (Raise TypeError). repeat split; auto; discriminate. }
    destruct (from_last_slash u) as [f |]; [| exists fs, (Raise ValueError); repeat split; auto; discriminate].
    destruct (folder fs) as [fs' [dir | e]] eqn:F.
    2:{ rewrite (folder_fails _ _ _ S F) in *. exists fs, (Raise e). repeat split; auto; discriminate. }
    destruct (folder_made _ _ _ S F) as (S' & FF & B & _ & MD & _).
    assert (NB : ~ blocked fs). { intros Q. destruct (folder_blocked fs S Q) as [e X]. congruence. }
    assert (W : nothing_written fs fs'). { intros p b H. right. now rewrite (file_at_files fs fs' p FF) in H. }
    destruct (net u) as [| e | content].
    { exists fs', (Ok tt). repeat split; auto; contradiction. }
    { exists fs', (Raise e). repeat split; auto; try contradiction; discriminate. }
    cbv zeta. destruct (open_w fs' _) as [fs2 | e] eqn:O.
    2:{ exists fs', (Ok tt). repeat split; auto; contradiction. }
    pose proof (opened_sound _ _ _ S' O) as S2. destruct (opened _ _ _ O) as (D & FS & _).
    exists fs2. eexists. split; [reflexivity |]. split; [exact S2 |]. split.
    { intros p b. unfold file_at. rewrite FS, file_set. destruct (path_eqb p _); [intros [= <-]; now left |]. apply W. }
    split; [contradiction |]. intros _ v V. unfold is_dir. rewrite D. exact (B v V).
  - unfold load_cache. destruct (folder fs) as [fs' [dir | e]] eqn:F.
    2:{ rewrite (folder_fails _ _ _ S F) in *. exists fs, (Raise e). repeat split; auto; discriminate. }
    destruct (folder_made _ _ _ S F) as (S' & FF & B & L & _ & _). rewrite L. cbn [filter load_all].
    exists fs', (Ok tt). split; [reflexivity |]. split; [exact S' |].
    split. { intros p b H. right. now rewrite (file_at_files fs fs' p FF) in H. }
    split; [| auto]. intros Q. destruct (folder_blocked fs S Q) as [e X]. congruence.
Qed.

(** ** The outcome of the first call *)

Lemma support_named v : support v = parts win (expanduser v) ++ support_names platform.
Proof.
  unfold support, support_names, parts. change (starts_with (py "win32") platform) with win.
  change (starts_with (py "darwin") platform) with (on_mac platform).
  destruct win eqn:W; [|destruct (on_mac platform)].
  - change (py "\" ++ py "OpenXES") with (92%N :: py "OpenXES"). now rewrite parts_app by reflexivity.
  - change (py "/Library/Application Support/" ++ py "OpenXES") with (47%N :: py "Library/Application Support/OpenXES").
    now rewrite parts_app by reflexivity.
  - change (py "/." ++ py "OpenXES") with (47%N :: py ".OpenXES"). now rewrite parts_app by reflexivity.
Qed.

Lemma folder_first fs v : profile = Some v -> sound fs -> creatable fs (support v) -> exists fs' dir,
  folder fs = (fs', Ok dir) /\ parts win dir = support v ++ [py "ExtensionCache"]
  /\ f_files fs' = f_files fs /\ with_folders fs (support v ++ [py "ExtensionCache"]) fs'.
Proof.
  intros P S [NP NF]. pose proof (cache_folder_cases fs S) as H. rewrite P in *. destruct H as [[_ H] | (f1 & f2 & dir & M1 & M2 & D & H)].
  - rewrite NP in H. cbn [orb] in H. apply existsb_exists in H. destruct H as (q & I & Q). apply prefixes_in in I.
    destruct I as [NQ [r X]]. rewrite (NF q r NQ X) in Q. discriminate.
  - destruct (made _ _ _ M1) as (_ & F1 & D1). destruct (made _ _ _ M2) as (_ & F2 & D2).
    exists f2, dir. split; [exact H|]. split; [exact D|]. split; [congruence|]. intros q. rewrite D2, D1. split.
    + intros [[X|[r X]]|X]; auto. right. exists (r ++ [py "ExtensionCache"]). now rewrite X, <- app_assoc.
    + tauto.
Qed.

Lemma parts_plain w s : s <> [] -> (forall c, In c s -> is_sep w c = false) -> forall acc, parts_from w acc s = [acc ++ s].
Proof.
  induction s as [| c s IH]; [easy|]. intros _ H acc. cbn [parts_from]. rewrite (H c (or_introl eq_refl)).
  destruct s as [| d s].
  - cbn. destruct acc; reflexivity.
  - rewrite IH; [now rewrite <- app_assoc|discriminate|]. intros x I. apply H. now right.
Qed.

Lemma ends_with_spec suf s : ends_with suf s = true <-> exists t, s = t ++ suf.
Proof.
  unfold ends_with. rewrite starts_with_spec. split; intros [t H].
  - exists (rev t). rewrite <- (rev_involutive s), H, rev_app_distr. now rewrite rev_involutive.
  - exists (rev t). rewrite H, rev_app_distr. reflexivity.
Qed.

Lemma from_slash base name : ~ In 47%N name -> from_last_slash (base ++ 47%N :: name) = Some (47%N :: name).
Proof.
  intros N. unfold from_last_slash.
  assert (mem_char 47 (base ++ 47%N :: name) = true) as -> by (apply mem_char_spec, in_or_app; right; now left).
  rewrite rev_app_distr. cbn [rev]. rewrite <- app_assoc. cbn [app].
  rewrite before_char_app; [now rewrite rev_involutive|]. now rewrite <- in_rev.
Qed.

Lemma open_inside fs p x : is_dir fs p = true -> is_dir fs (p ++ [x]) = false ->
  open_w fs (p ++ [x]) = Ok (mk_fs (f_dirs fs) (dict_set path_eqb (p ++ [x]) [] (f_files fs))).
Proof. intros D N. unfold open_w. rewrite rev_app_distr. cbn [rev app]. rewrite rev_involutive, D, N. reflexivity. Qed.

(** The file name behind the last slash has the ending in the same cases. *)
Lemma ending_slash name file : cached_name name file ->
  (if ends_with (py ".xesext") (47%N :: name) then 47%N :: name else (47%N :: name) ++ py ".xesext") = 47%N :: file.
Proof.
  intros [[[t ->] ->]|[H ->]].
  - assert (ends_with (py ".xesext") (47%N :: t ++ py ".xesext") = true) as ->; [|reflexivity].
    apply ends_with_spec. now exists (47%N :: t).
  - assert (ends_with (py ".xesext") (47%N :: name) = false) as ->; [|reflexivity].
    rewrite <- not_true_iff_false, ends_with_spec. intros [[| c t] X]; [discriminate|]. injection X as X0 X; subst. now apply (H t).
Qed.

Lemma download fs m v base name file net content : profile = Some v -> sound fs -> creatable fs (parts win (expanduser v) ++ support_names platform) ->
  name <> [] -> (forall c, In c name -> is_sep win c = false) -> cached_name name file ->
  net (base ++ py "/" ++ name) = Answer content ->
  let cache := parts win (expanduser v) ++ support_names platform ++ [py "ExtensionCache"] in
  exists fs', step (fs, m) (CacheExtension (base ++ py "/" ++ name) net)
      = ((fs', m), match content with [] => Ok tt | _ => Raise TypeError end)
    /\ with_folders fs cache fs' /\ file_at fs' (cache ++ [file]) = Some []
    /\ forall p, p <> cache ++ [file] -> file_at fs' p = file_at fs p.
Proof.
  intros P S C NE NS CN NET cache. rewrite <- support_named in C. destruct (folder_first fs v P S C) as (f1 & dir & F & D & FF & W).
  assert (DC : parts win dir = cache) by (unfold cache; rewrite D, support_named, <- app_assoc; reflexivity).
  rewrite support_named, <- app_assoc in W. fold cache in W.
  assert (N47 : ~ In 47%N name). { intros I. apply NS in I. unfold is_sep in I. discriminate. }
  cbn [cache_step]. unfold cache_extension. change (py "/" ++ name) with (47%N :: name) in *.
  destruct (rev (base ++ 47%N :: name)) as [| c r] eqn:R.
  { apply (f_equal (@List.length _)) in R. rewrite rev_length, app_length in R. cbn in R. lia. }
  assert (N.eqb c 47 = false) as ->.
  { apply N.eqb_neq. intros ->. destruct (exists_last NE) as (n' & y & ->). rewrite rev_app_distr in R. cbn [rev] in R.
    rewrite rev_app_distr in R. injection R as -> _. apply N47, in_or_app. right. now left. }
  rewrite (from_slash base name N47). cbv iota beta zeta. rewrite F. cbv iota beta zeta. set (fn := if ends_with _ _ then _ else _). replace fn with (47%N :: file) by (symmetry; exact (ending_slash name file CN)). clear fn. rewrite NET.
  assert (NF : file <> [] /\ forall c, In c file -> is_sep win c = false).
  { destruct CN as [[_ ->]|[_ ->]]; [auto|]. split; [destruct name; discriminate|]. intros x I. apply in_app_or in I.
    destruct I as [I|I]; [auto|]. clear - I. cbn in I. destruct win; intuition subst; reflexivity. }
  destruct NF as [NF1 NF2].
  assert (PP : parts win (dir ++ path_sep platform ++ 47%N :: file) = cache ++ [file]).
  { rewrite <- DC. unfold parts, path_sep. destruct win eqn:WI.
    - change (py "\" ++ 47%N :: file) with (92%N :: 47%N :: file). rewrite parts_app by reflexivity.
      cbn [parts_from]. change (is_sep true 47) with true. cbn [app]. f_equal. now apply parts_plain.
    - change (py "/" ++ 47%N :: file) with (47%N :: 47%N :: file). rewrite parts_app by reflexivity.
      cbn [parts_from]. change (is_sep false 47) with true. cbn [app]. f_equal. now apply parts_plain. }
  rewrite PP.
  assert (ID : is_dir f1 cache = true) by (apply W; right; exists []; now rewrite app_nil_r).
  assert (ND : is_dir f1 (cache ++ [file]) = false).
  { rewrite <- not_true_iff_false. intros X. apply W in X. destruct X as [X|[q X]].
    - assert (DS : is_dir fs (support v) = false) by (destruct C as [C _]; unfold present in C; now apply orb_false_iff in C).
      pose proof (missing_below fs (support v) S DS (py "ExtensionCache") [file]) as B. unfold present in B.
      rewrite support_named in B. unfold cache in X. rewrite <- !app_assoc in X. rewrite <- app_assoc in B. cbn [app] in X, B. rewrite X in B. discriminate.
    - apply (f_equal (@List.length _)) in X. rewrite !app_length in X. cbn in X. lia. }
  rewrite (open_inside f1 cache file ID ND). eexists. split; [reflexivity|]. split; [exact W|]. unfold file_at. cbn [f_files].
  split; [now rewrite file_set, path_eqb_refl|]. intros p Q. rewrite file_set, FF.
  destruct (path_eqb p (cache ++ [file])) eqn:EQ; [apply path_eqb_eq in EQ; contradiction|reflexivity].
Qed.

Lemma first_load fs m v : profile = Some v -> sound fs -> creatable fs (parts win (expanduser v) ++ support_names platform) ->
  exists fs', step (fs, m) LoadCache = ((fs', m), Ok tt)
    /\ with_folders fs (parts win (expanduser v) ++ support_names platform ++ [py "ExtensionCache"]) fs'
    /\ forall p, file_at fs' p = file_at fs p.
Proof.
  intros P S C. rewrite <- support_named in C. destruct (folder_first fs v P S C) as (f1 & dir & F & D & FF & W).
  rewrite support_named, <- app_assoc in W. cbn [cache_step]. unfold load_cache. rewrite F.
  destruct (folder_made _ _ _ S F) as (_ & _ & _ & L & _ & _). rewrite L. cbn [filter load_all].
  exists f1. split; [reflexivity|]. split; [exact W|]. intros p. now apply file_at_files.
Qed.

Lemma stopped fs m v : profile = Some v -> sound fs -> ~ creatable fs (parts win (expanduser v) ++ support_names platform) ->
  step (fs, m) LoadCache = ((fs, m), Raise OSError)
  /\ forall base name net, name <> [] -> ~ In 47%N name ->
       step (fs, m) (CacheExtension (base ++ py "/" ++ name) net) = ((fs, m), Raise OSError).
Proof.
  intros P S C. assert (F : folder fs = (fs, Raise OSError)).
  { pose proof (cache_folder_cases fs S) as H. rewrite P in *. destruct H as [[H _] | (f1 & f2 & dir & M1 & _)]; [exact H|].
    exfalso. apply C. rewrite <- support_named. unfold makedirs in M1. destruct (present fs (support v)) eqn:PR; [discriminate|].
    cbn [orb] in M1. destruct (existsb _ _) eqn:X; [discriminate|]. split; [exact PR|]. intros q r NQ E'.
    destruct (is_file fs q) eqn:Q; [|reflexivity]. exfalso.
    rewrite <- not_true_iff_false in X. apply X. apply existsb_exists. exists q. split; [|exact Q]. apply prefixes_in.
    split; [exact NQ|now exists r]. }
  split.
  - cbn [cache_step]. unfold load_cache. now rewrite F.
  - intros base name net NE N47. cbn [cache_step]. unfold cache_extension. change (py "/" ++ name) with (47%N :: name).
    destruct (rev (base ++ 47%N :: name)) as [| c r] eqn:R.
    { apply (f_equal (@List.length _)) in R. rewrite rev_length, app_length in R. cbn in R. lia. }
    assert (N.eqb c 47 = false) as ->.
    { apply N.eqb_neq. intros ->. destruct (exists_last NE) as (n' & y & ->). rewrite rev_app_distr in R. cbn [rev] in R.
      rewrite rev_app_distr in R. injection R as -> _. apply N47, in_or_app. right. now left. }
    rewrite (from_slash base name N47), F. reflexivity.
Qed.

Lemma bad_uri fs m net : let call u := step (fs, m) (CacheExtension u net) in
  call [] = ((fs, m), Raise IndexError)
  /\ (forall u, call (u ++ py "/") = ((fs, m), Raise TypeError))
  /\ (forall u, u <> [] -> ~ In 47%N u -> call u = ((fs, m), Raise ValueError)).
Proof.
  cbv zeta. split; [reflexivity|]. split.
  - intros u. cbn [cache_step]. unfold cache_extension. rewrite rev_app_distr. reflexivity.
  - intros u NE N47. cbn [cache_step]. unfold cache_extension, from_last_slash. destruct (exists_last NE) as (n & y & ->).
    rewrite (proj2 (mem_char_false 47 _) N47), rev_app_distr. cbn [rev app].
    assert (N.eqb y 47 = false) as ->; [|reflexivity]. apply N.eqb_neq. intros ->. apply N47, in_or_app. right. now left.
Qed.

Lemma written_trans a b c : nothing_written a b -> nothing_written b c -> nothing_written a c.
Proof. intros H1 H2 p x H. destruct (H2 p x H) as [-> | Q]; [now left | now apply H1]. Qed.

Lemma run_cases h : forall fs m, sound fs -> exists fs' rs, run (fs, m) h = ((fs', m), rs)
  /\ sound fs' /\ nothing_written fs fs' /\ at_most_one rs /\ (blocked fs -> Forall (fun r => r <> Ok tt) rs).
Proof.
  induction h as [| c h IH]; intros fs m S; cbn [cache_run].
  - exists fs, []. split; [reflexivity |]. split; [exact S |]. split; [intros p b H; now right |].
    split; [intros [|] j H; discriminate | constructor].
  - destruct (step_cases fs m c S) as (f1 & r & -> & S1 & W1 & B1 & O1).
    destruct (IH f1 m S1) as (f2 & rs & -> & S2 & W2 & A & B2).
    exists f2, (r :: rs). split; [reflexivity |]. split; [exact S2 |]. split; [exact (written_trans _ _ _ W1 W2) |]. split.
    + assert (X : r = Ok tt -> forall j, nth_error rs j <> Some (Ok tt)).
      { intros R j H. apply nth_error_In in H. specialize (B2 (O1 R)). rewrite Forall_forall in B2. now apply (B2 _ H). }
      intros [| i] [| j] Hi Hj; cbn in Hi, Hj; auto.
      * exfalso. injection Hi as ->. now apply (X eq_refl j).
      * exfalso. injection Hj as ->. now apply (X eq_refl i).
    + intros Q. destruct (B1 Q) as [Q1 R]. constructor; [exact R | exact (B2 Q1)].
Qed.

Lemma no_profile_raises h : profile = None -> forall fs m, sound fs -> exists rs, run (fs, m) h = ((fs, m), rs) /\ Forall (fun r => r <> Ok tt) rs.
Proof.
  intros P. assert (FN : forall fs, folder fs = (fs, Raise TypeError)) by (intros fs; unfold cache_folder, support_folder; now rewrite P).
  induction h as [| c h IH]; intros fs m S; cbn [cache_run]; [eauto |].
  assert (X : exists r, step (fs, m) c = ((fs, m), r) /\ r <> Ok tt).
  { destruct c as [u net |]; cbn [cache_step]; unfold cache_extension, load_cache; rewrite ?FN.
    - destruct (rev u) as [| c r]; [eexists; split; [reflexivity | discriminate] |].
      destruct (N.eqb c 47); [eexists; split; [reflexivity | discriminate] |].
      destruct (from_last_slash u); eexists; (split; [reflexivity | discriminate]).
    - eexists; split; [reflexivity | discriminate]. }
  destruct X as (r & -> & R). destruct (IH fs m S) as (rs & -> & F). exists (r :: rs). split; [reflexivity |]. now constructor.
Qed.
End Steps.
End Facts.
