(** Property C72: the cache of extension definitions. *)
From Coq Require Import String NArith ZArith List Bool.
From Verif Require Import Base.PyBase Base.Codec Base.PyVal Model.Attr Model.Registry Model.Cache Spec.Folders Proofs.CacheFacts.
Import ListNotations.

(** Whatever calls of cache_extension and load_extension_cache are made, with whatever
    platform, network and files, the manager's extensions stay the same. *)
Theorem C72_never_loads : forall platform profile expanduser E (uri_of : E -> pystr) here old parse fs m h,
  sound fs -> snd (fst (cache_run platform profile expanduser uri_of here old parse (fs, m) h)) = m.
Proof.
  intros platform profile expanduser E uri_of here old parse fs m h S.
  destruct (run_cases platform profile expanduser uri_of here old parse h fs m S) as (fs' & rs & -> & _). reflexivity.
Qed.
Print Assumptions C72_never_loads.

(** No definition is stored: files that change are empty. *)
Theorem C72_never_stores : forall platform profile expanduser E (uri_of : E -> pystr) here old parse fs m h,
  sound fs -> nothing_written fs (fst (fst (cache_run platform profile expanduser uri_of here old parse (fs, m) h))).
Proof.
  intros platform profile expanduser E uri_of here old parse fs m h S.
  destruct (run_cases platform profile expanduser uri_of here old parse h fs m S) as (fs' & rs & -> & _ & W & _). exact W.
Qed.
Print Assumptions C72_never_stores.

(** At most one call returns: the folder it has created makes all others fail. *)
Theorem C72_one_return : forall platform profile expanduser E (uri_of : E -> pystr) here old parse fs m h,
  sound fs -> at_most_one (snd (cache_run platform profile expanduser uri_of here old parse (fs, m) h)).
Proof.
  intros platform profile expanduser E uri_of here old parse fs m h S.
  destruct (run_cases platform profile expanduser uri_of here old parse h fs m S) as (fs' & rs & -> & _ & _ & A & _). exact A.
Qed.
Print Assumptions C72_one_return.

(** Without the variable USERPROFILE every call fails and nothing is touched. *)
Theorem C72_no_profile : forall platform expanduser E (uri_of : E -> pystr) here old parse fs m h, sound fs ->
  exists rs, cache_run platform None expanduser uri_of here old parse (fs, m) h = ((fs, m), rs) /\ Forall (fun r => r <> Ok tt) rs.
Proof.
  intros platform expanduser E uri_of here old parse fs m h S.
  exact (no_profile_raises platform None expanduser uri_of here old parse h eq_refl fs m S).
Qed.
Print Assumptions C72_no_profile.

(** The first call that gets an answer creates the folder of the cache and an empty file named
    like the end of the URI; it raises TypeError unless the answer is empty. *)
Theorem C72_download : forall platform v expanduser E (uri_of : E -> pystr) here old parse fs m base name file net content,
  let windows := starts_with (py "win32") platform in
  let home := parts windows (expanduser v) in
  let cache := home ++ support_names platform ++ [py "ExtensionCache"] in
  sound fs -> creatable fs (home ++ support_names platform) ->
  name <> [] -> (forall c, In c name -> is_sep windows c = false) -> cached_name name file ->
  net (base ++ py "/" ++ name) = Answer content ->
  exists fs', cache_step platform (Some v) expanduser uri_of here old parse (fs, m) (CacheExtension (base ++ py "/" ++ name) net)
      = ((fs', m), match content with [] => Ok tt | _ => Raise TypeError end)
    /\ with_folders fs cache fs' /\ file_at fs' (cache ++ [file]) = Some []
    /\ forall p, p <> cache ++ [file] -> file_at fs' p = file_at fs p.
Proof.
  intros platform v expanduser E uri_of here old parse fs m base name file net content windows home cache S C.
  exact (download platform (Some v) expanduser uri_of here old parse fs m v base name file net content eq_refl S C).
Qed.
Print Assumptions C72_download.

(** The first call of load_extension_cache returns and only creates the folder. *)
Theorem C72_first_load : forall platform v expanduser E (uri_of : E -> pystr) here old parse fs m,
  let home := parts (starts_with (py "win32") platform) (expanduser v) in
  sound fs -> creatable fs (home ++ support_names platform) ->
  exists fs', cache_step platform (Some v) expanduser uri_of here old parse (fs, m) LoadCache = ((fs', m), Ok tt)
    /\ with_folders fs (home ++ support_names platform ++ [py "ExtensionCache"]) fs'
    /\ forall p, file_at fs' p = file_at fs p.
Proof.
  intros platform v expanduser E uri_of here old parse fs m home S C.
  exact (first_load platform (Some v) expanduser uri_of here old parse fs m v eq_refl S C).
Qed.
Print Assumptions C72_first_load.

(** When the support folder exists, or a file is in its way, the calls raise OSError and change
    nothing. *)
Theorem C72_in_the_way : forall platform v expanduser E (uri_of : E -> pystr) here old parse fs m,
  let home := parts (starts_with (py "win32") platform) (expanduser v) in
  sound fs -> ~ creatable fs (home ++ support_names platform) ->
  cache_step platform (Some v) expanduser uri_of here old parse (fs, m) LoadCache = ((fs, m), Raise OSError)
  /\ forall base name net, name <> [] -> ~ In 47%N name ->
       cache_step platform (Some v) expanduser uri_of here old parse (fs, m) (CacheExtension (base ++ py "/" ++ name) net)
       = ((fs, m), Raise OSError).
Proof.
  intros platform v expanduser E uri_of here old parse fs m home S C.
  exact (stopped platform (Some v) expanduser uri_of here old parse fs m v eq_refl S C).
Qed.
Print Assumptions C72_in_the_way.

(** A URI that is empty, ends in a slash or has no slash is refused before anything is touched. *)
Theorem C72_bad_uri : forall platform profile expanduser E (uri_of : E -> pystr) here old parse fs m net,
  let call u := cache_step platform profile expanduser uri_of here old parse (fs, m) (CacheExtension u net) in
  call [] = ((fs, m), Raise IndexError)
  /\ (forall u, call (u ++ py "/") = ((fs, m), Raise TypeError))
  /\ (forall u, u <> [] -> ~ In 47%N u -> call u = ((fs, m), Raise ValueError)).
Proof.
  intros platform profile expanduser E uri_of here old parse fs m net call.
  exact (bad_uri platform profile expanduser uri_of here old parse fs m net).
Qed.
Print Assumptions C72_bad_uri.

(** A case: a home folder with a definition in the current folder, which would be loaded if
    the folder of the cache could be used twice. *)
Definition home : fsys := mk_fs [[py "home"]; [py "home"; py "u"]] [([py "home"; py "u"; py "a.xesext"], [60%N])].
Lemma home_sound : sound home.
Proof.
  intros p x H. unfold present in H. apply orb_prop in H. destruct H as [H | H].
  - apply is_dir_iff in H. destruct H as [H | H]; [now destruct p |].
    cbn [home f_dirs In] in H. destruct H as [H | [H | []]].
    + apply (app_inj_tail [] p) in H. destruct H as [<- _]. reflexivity.
    + apply (app_inj_tail [py "home"] p) in H. destruct H as [<- _]. reflexivity.
  - unfold is_file, file_at in H. cbn [home f_files dict_get] in H. destruct (path_eqb _ _) eqn:Q; [| discriminate].
    apply path_eqb_eq in Q.
    assert (Q' : p ++ [x] = [py "home"; py "u"] ++ [py "a.xesext"]) by (rewrite Q; reflexivity).
    apply app_inj_tail in Q'. destruct Q' as [-> _]. reflexivity.
Qed.
Definition one_ext (b : bytes) : res xext := Ok (mk_xext (py "A") (py "a") (py "http://a/a.xesext")).
Example C72_example :
  sound home /\
  let run := cache_run (py "linux") (Some (py "/home/u")) (fun s => s) x_uri [py "home"; py "u"] (fun _ => false) one_ext in
  (* a definition is downloaded: the call fails and leaves an empty file *)
  snd (run (home, mk_mgr [] []) [CacheExtension (py "http://a/a") (fun _ => Answer [60%N]); LoadCache; LoadCache])
  = [Raise TypeError; Raise OSError; Raise OSError]
  /\ file_at (fst (fst (run (home, mk_mgr [] []) [CacheExtension (py "http://a/a") (fun _ => Answer [60%N])])))
       [py "home"; py "u"; py ".OpenXES"; py "ExtensionCache"; py "a.xesext"] = Some []
  /\ snd (run (home, mk_mgr [] []) [LoadCache; LoadCache; CacheExtension (py "http://a/a") (fun _ => NoAnswer)])
     = [Ok tt; Raise OSError; Raise OSError]
  (* what cannot happen: the loop of load_extension_cache would register a definition *)
  /\ exists m, load_one (py "linux") x_uri (fun _ => false) one_ext (py "/home/u") home (mk_mgr [] []) (py "a.xesext") = Ok (home, m)
     /\ List.length (mg_list m) = 1.
Proof. split; [exact home_sound |]. cbv zeta. split; [reflexivity |]. split; [reflexivity |]. split; [reflexivity |]. eexists. split; reflexivity. Qed.
Example C72_first_example :
  creatable home (parts false (py "/home/u") ++ support_names (py "linux"))
  /\ ~ creatable home (parts false (py "/home") ++ [py "u"])
  /\ cached_name (py "a") (py "a.xesext") /\ cached_name (py "b.xesext") (py "b.xesext").
Proof.
  split; [split; [reflexivity|]|].
  { intros q r N H. destruct q as [|a [|b [|c [|d q]]]]; [now destruct N| | | |discriminate H].
    - injection H as <- _. reflexivity.
    - injection H as <- <- _. reflexivity.
    - injection H as <- <- <- _. reflexivity. }
  split; [intros [H _]; discriminate H|]. split.
  - right. split; [|reflexivity]. intros [|x t] H; [discriminate H|]. apply (f_equal (@List.length _)) in H.
    rewrite app_length in H. cbn in H. now rewrite <- plus_n_Sm in H.
  - left. split; [now exists (py "b")|reflexivity].
Qed.
