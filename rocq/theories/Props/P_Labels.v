(** Property C78: extensions only label what is read. *)
From Coq Require Import String Arith NArith ZArith List Bool.
From Verif Require Import Base.PyBase Base.PyVal Base.Xml Model.Attr Model.Log Model.Registry Model.XesRead
  Spec.Typing Spec.Xes Spec.XesParts Spec.Labels Proofs.LabelFacts.
Import ListNotations.

(** Whatever the parser reads with one set of registered extensions, with another it reads the
    same log but for the extensions: each attribute at any depth has the extension that is
    registered for the prefix of its key. *)
Theorem C78_reading : forall (FIO : FloatIO) mgr mgr' urlparse draw es s s' r l,
  xes_run mgr urlparse draw es ps_init = Ok s -> xes_run mgr' urlparse draw es ps_init = Ok s' ->
  p_log s' = p_log s /\ (log_in (p_heap s) r l ->
  exists xs, log_in (p_heap s') r (relabel_log (named_extension mgr') xs l)).
Proof. exact @read_again. Qed.
Print Assumptions C78_reading.

(** The log's own extensions are those its declarations stand for, by prefix if they have one
    and by URI only otherwise, and of several with one URI the first. *)
Theorem C78_declared : forall (FIO : FloatIO) urlparse draw mgr es s r l,
  logs es = 1 -> xes_run mgr urlparse draw es ps_init = Ok s -> log_in (p_heap s) r l ->
  lg_exts l = first_uris [] (found mgr urlparse es).
Proof. exact @log_extensions. Qed.
Print Assumptions C78_declared.

(** Registered extensions do not decide whether a document can be read, if its declarations
    have URIs and stand inside the log. *)
Theorem C78_outcome : forall (FIO : FloatIO) urlparse draw mgr mgr' es, declared_well es ->
  match xes_run mgr urlparse draw es ps_init, xes_run mgr' urlparse draw es ps_init with
  | Ok _, Ok _ => True | Raise x, Raise y => x = y | _, _ => False end.
Proof. exact @same_outcome. Qed.
Print Assumptions C78_outcome.

(** An extension under a new URI labels the keys with its prefix that had no label. *)
Theorem C78_register : forall m x k, (forall y, In y (mg_list m) -> x_uri y <> x_uri x) ->
  named_extension (mgr_register x_uri m x) k =
  match named_extension m k with
  | Some y => Some y
  | None => if mem_char 58 k && str_eqb (x_prefix x) (before_char 58 k) then Some x else None
  end.
Proof. exact register_label. Qed.
Print Assumptions C78_register.

(** One under a URI that was registered before labels nothing. *)
Theorem C78_register_again : forall m x k, (exists y, In y (mg_list m) /\ x_uri y = x_uri x) ->
  named_extension (mgr_register x_uri m x) k = named_extension m k.
Proof. exact register_again. Qed.
Print Assumptions C78_register_again.

(** /repo/example/Parse_log_with_new_extension.py: a document read before and after its
    extension is registered. *)
Definition ext_meta : xext := mk_xext (py "Meta_general") (py "meta_general") (py "http://www.xes-standard.org/meta_general.xesext").
Definition meta_doc : list sax :=
  [SStart (py "log") [];
   SStart (py "extension") [(py "name", py "Meta_general"); (py "prefix", py "meta_general"); (py "uri", x_uri ext_meta)]; SEnd (py "extension");
   SStart (py "extension") [(py "name", py "Concept"); (py "prefix", py "concept"); (py "uri", x_uri ext_concept)]; SEnd (py "extension");
   SStart (py "int") [(py "key", py "meta_general:traces_total"); (py "value", py "12")]; SEnd (py "int");
   SStart (py "string") [(py "key", py "concept:name"); (py "value", py "a")]; SEnd (py "string");
   SEnd (py "log")].
Definition known : manager xext := mgr_register x_uri std_manager ext_meta.
Definition meta_before : xlog :=
  mk_log [(py "meta_general:traces_total", mk_attr CDiscrete (py "meta_general:traces_total") None (PInt 12) [] []);
          (py "concept:name", mk_attr CLiteral (py "concept:name") (Some ext_concept) (PStr (py "a")) [] [])]
         [] [ext_concept] [] [] [] [].
Definition meta_after : xlog := relabel_log (named_extension known) [ext_meta; ext_concept] meta_before.
Definition reads_log (m : manager xext) (l : xlog) : Prop :=
  exists s, @xes_run no_floats m (fun u => Some u) N.of_nat meta_doc ps_init = Ok s /\ p_log s = Some 0 /\ log_in (p_heap s) 0 l.
Example C78_example : logs meta_doc = 1 /\ reads_log std_manager meta_before /\ reads_log known meta_after
  /\ map (fun p => a_ext (snd p)) (lg_attrs meta_after) = [Some ext_meta; Some ext_concept].
Proof.
  split; [reflexivity|]. split; [|split; [|vm_compute; reflexivity]];
    (eexists; split; [vm_compute; reflexivity|]; split; [reflexivity|];
     exists [(py "meta_general:traces_total", 1); (py "concept:name", 2)], [], [], []; split; [vm_compute; reflexivity|];
     split; [|repeat split; constructor];
     constructor; [|constructor; [|constructor]]; (split; [reflexivity|]); (econstructor; [vm_compute; reflexivity|constructor|constructor])).
Qed.
Example C78_example_well : declared_well meta_doc.
Proof.
  assert (forall done rest, existsb (opens (py "log")) done = true ->
    (forall e, In e rest -> opens (py "extension") e = true -> has_uri e) ->
    forall a e b, done ++ rest = a ++ e :: b -> List.length done <= List.length a -> opens (py "extension") e = true ->
    has_uri e /\ existsb (opens (py "log")) a = true) as K.
  { intros done rest D U a e b E L O. assert (exists c, a = done ++ c /\ rest = c ++ e :: b) as (c & -> & ->).
    { clear - E L. revert a L E. induction done as [|d done IH]; intros a L E; [now exists a|].
      destruct a as [|x a]; [inversion L|]. cbn in E. injection E as -> E. cbn in L. apply le_S_n in L.
      destruct (IH a L E) as (c & -> & ->). now exists c. }
    split; [|rewrite existsb_app, D; reflexivity]. apply U; [|exact O]. apply in_or_app. right. now left. }
  intros a e b E O. destruct a as [|x a]; [injection E as <- _; discriminate|].
  apply (K [SStart (py "log") []] (tl meta_doc) eq_refl) with (b := b); auto.
  - intros d I X. repeat (destruct I as [<-|I]; [try discriminate; eexists _, _, _; split; reflexivity|]). destruct I.
  - cbn. apply le_n_S, Nat.le_0_l.
Qed.
