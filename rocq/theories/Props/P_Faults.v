(** C89: which XES documents are read, and what the reader raises for the others. *)
From Coq Require Import String NArith ZArith List Bool.
From Verif Require Import Base.PyBase Base.PyDate Base.PyVal Base.Xml Model.Attr Model.Registry Model.XesRead
  Spec.Typing Spec.Xes Spec.Faults Proofs.FaultFacts.
Import ListNotations.

(** A document whose elements stand where they belong, with no unreadable date: it is read
    iff no value in it is faulty; otherwise the exception is that of the first faulty
    element. *)
Theorem C89_first_fault : forall (FIO : FloatIO) mgr urlparse draw doc, well_placed doc = true -> bad_dates doc = 0 ->
  match faults mgr urlparse doc with
  | [] => exists s l, xes_parse mgr urlparse draw doc = Ok s /\ p_log s = Some l
  | e :: _ => xes_parse mgr urlparse draw doc = Raise e
  end.
Proof. exact @document_outcome. Qed.
Print Assumptions C89_first_fault.

(** With unreadable dates it is not read; the exception is IndexError or that of a faulty
    element. *)
Theorem C89_unreadable_dates : forall (FIO : FloatIO) mgr urlparse draw doc, well_placed doc = true -> bad_dates doc <> 0 ->
  exists e, xes_parse mgr urlparse draw doc = Raise e /\ (e = IndexError \/ In e (faults mgr urlparse doc)).
Proof. exact @document_raise. Qed.
Print Assumptions C89_unreadable_dates.

(** Any document that is read has no faulty element, wherever its elements stand. *)
Theorem C89_no_fault_survives : forall (FIO : FloatIO) mgr urlparse draw doc s,
  xes_parse mgr urlparse draw doc = Ok s -> faults mgr urlparse doc = [].
Proof. intros FIO mgr urlparse draw doc s R. exact (accepted_faults mgr urlparse draw doc _ _ R). Qed.
Print Assumptions C89_no_fault_survives.

(** Whatever the handler is fed, it raises one of five exceptions. *)
Theorem C89_exceptions : forall (FIO : FloatIO) mgr urlparse draw es s e, xes_run mgr urlparse draw es s = Raise e ->
  In e [ValueError; OverflowError; IndexError; AttributeError; TypeError].
Proof. exact @run_raises. Qed.
Print Assumptions C89_exceptions.

(** Events without any trace and traces without a log are not read. *)
Theorem C89_stray_event : forall (FIO : FloatIO) mgr urlparse draw doc,
  has_tag "event" doc = true -> has_tag "trace" doc = false -> exists e, xes_parse mgr urlparse draw doc = Raise e.
Proof. exact @stray_event. Qed.
Print Assumptions C89_stray_event.
Theorem C89_stray_trace : forall (FIO : FloatIO) mgr urlparse draw doc,
  has_tag "trace" doc = true -> has_tag "log" doc = false -> exists e, xes_parse mgr urlparse draw doc = Raise e.
Proof. exact @stray_trace. Qed.
Print Assumptions C89_stray_trace.

Definition tag (t : string) (atts : list (string * string)) (kids : list xnode) : xnode :=
  XElem (py t) (map (fun kv => (py (fst kv), py (snd kv))) atts) kids.
Definition int_tag (v : string) : xnode := tag "int" [("key", "n"); ("value", v)]%string [].
Definition a_document (decls in_event : list xnode) : xnode :=
  tag "log" [] (decls ++ [tag "trace" [] [int_tag "1"; tag "meta" [] [tag "event" [] in_event]]]).
Definition read (doc : xnode) := @xes_parse no_floats std_manager (fun u => Some u) N.of_nat doc.

Example C89_example :
  let good := a_document [tag "extension" [("prefix", "time")]%string []; tag "global" [("scope", "log")]%string []] [int_tag "2"] in
  let bad := a_document [tag "extension" [("prefix", "new")]%string []] [int_tag "two"] in
  let late := a_document [] [int_tag "two"; tag "id" [] []] in
  let date := a_document [] [tag "date" [("value", "today")]%string []] in
  well_placed good = true /\ bad_dates good = 0 /\ @faults no_floats std_manager (fun u => Some u) good = []
  /\ match read good with Ok s => p_log s = Some 0 | Raise _ => False end
  /\ well_placed bad = true /\ @faults no_floats std_manager (fun u => Some u) bad = [TypeError; ValueError] /\ read bad = Raise TypeError
  /\ @faults no_floats std_manager (fun u => Some u) late = [ValueError; ValueError] /\ read late = Raise ValueError
  /\ well_placed date = true /\ bad_dates date = 1 /\ read date = Raise IndexError
  /\ read (tag "log" [] [tag "event" [] []]) = Raise AttributeError
  /\ read (tag "trace" [] []) = Raise AttributeError
  /\ read (int_tag "1") = Raise IndexError
  /\ @xes_parse no_floats std_manager (fun _ => None) N.of_nat (a_document [tag "extension" [("uri", "http://[")]%string []] []) = Raise ValueError.
Proof. vm_compute. repeat split. Qed.

(** Not all that is read is well placed: a trace in a trace is read, and leaves a log in
    which the outer trace is missing and None is in its place. *)
Theorem C89_misplaced_refuted : exists doc s m inner exts cls gt ge fs, well_placed doc = false /\ read doc = Ok s
  /\ p_log s = Some 0 /\ nth_error (p_heap s) 0 = Some (OLog m [Some inner; None] exts cls gt ge fs).
Proof.
  exists (tag "log" [] [tag "trace" [] [tag "trace" [] []]]). eexists. do 7 eexists.
  split; [reflexivity|]. split; [vm_compute; reflexivity|]. split; reflexivity.
Qed.
Print Assumptions C89_misplaced_refuted.
