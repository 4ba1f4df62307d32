(** Property C85: values that do not fit the class of their attribute. *)
From Coq Require Import String NArith ZArith List Bool.
From Verif Require Import Base.PyBase Base.PyDate Base.PyVal Base.Xml Model.Attr Model.DateConv Model.Log Model.Registry Model.XesWrite
  Model.XesRead Spec.Typing Spec.DateText Spec.Xes Spec.Loose Proofs.LowerFacts Proofs.XidFacts Proofs.BaseFacts Proofs.DateFacts
  Proofs.XesRoundFacts Proofs.LooseFacts Props.P_Xes.
Import ListNotations.

(** A log can be written if and only if every time stamp holds a date-time; otherwise
    AttributeError.  Nothing else is checked. *)
Theorem C85_written : forall (FIO : FloatIO) l,
  ((exists doc, xes_serialize l = Ok doc) <-> Forall dated (written_attrs l))
  /\ (~ Forall dated (written_attrs l) -> xes_serialize l = Raise AttributeError).
Proof.
  intros FIO l. destruct (serialize_outcome (fun u => Some u) l) as [[[doc E] H]|[E H]]; rewrite E.
  - split; [split; [auto|eauto]|contradiction].
  - split; [split; [intros [d X]; discriminate|contradiction]|auto].
Qed.
Print Assumptions C85_written.

(** What was written can be loaded if and only if every value can be converted to the type of
    its attribute, and then all values are converted. *)
Theorem C85_loaded : forall (FIO : FloatIO) mgr urlparse draw l doc, keyed_log l ->
  xes_serialize l = Ok doc -> Forall plain_date (written_attrs l) ->
  Forall convertible (written_attrs l) ->
  exists s r l', xes_parse mgr urlparse draw doc = Ok s /\ p_log s = Some r /\ log_in (p_heap s) r l'
  /\ turned_map mgr (lg_attrs l) (lg_attrs l') /\ Forall2 (turned_trace mgr) (lg_traces l) (lg_traces l').
Proof.
  intros FIO mgr urlparse draw l doc K W P V.
  destruct (loose_loaded mgr urlparse draw l K (proj1 (proj1 (C85_written _ l)) (ex_intro _ doc W)) P V) as (doc' & s & r & l' & W' & H).
  rewrite W in W'. injection W' as <-. exists s, r, l'. exact H.
Qed.
Print Assumptions C85_loaded.
Theorem C85_refused : forall (FIO : FloatIO) mgr urlparse draw l doc,
  xes_serialize l = Ok doc -> Forall plain_date (written_attrs l) ->
  Exists (fun a => ~ convertible a) (written_attrs l) ->
  exists e, xes_parse mgr urlparse draw doc = Raise e.
Proof. intros FIO mgr urlparse draw. exact (loose_refused mgr urlparse draw). Qed.
Print Assumptions C85_refused.

(** Values that fit are kept as in C33.  A text attribute takes anything; a truth value or
    [None] in an int or id attribute makes the file unreadable; [None] or a number in a truth
    value attribute becomes false; a text in an int or id attribute is read as the number or
    id that it prints. *)
Theorem C85_kinds : forall (FIO : FloatIO),
  (forall c v, is_collection c = false -> readable_value c v -> converted c v = Some (value_back v))
  /\ (forall v, converted CLiteral v <> None /\ converted CBoolean v <> None)
  /\ (forall v, v = PNone \/ (exists b, v = PBool b) -> converted CDiscrete v = None /\ converted CID v = None)
  /\ (forall z, converted CBoolean (PInt z) = Some (PBool false)) /\ converted CBoolean PNone = Some (PBool false)
  /\ (forall z, converted CDiscrete (PStr (print_Z z)) = Some (PInt z))
  /\ (forall u, (u < 2 ^ 128)%N -> converted CID (PStr (xid_str u)) = Some (PXid u)).
Proof.
  intros FIO. split.
  { intros c v C R. destruct (value_roundtrip c [] None v [] [] R C) as (t & S & T).
    assert (P : plain_date (mk_attr c [] None v [] [])).
    { intros d E1 E2. cbn in E1, E2. subst. exact R. }
    pose proof (value_read c [] None v [] [] t C S P) as H. destruct (converted c v) as [v'|].
    - rewrite T in H. now injection H as ->.
    - destruct H as [x H]. rewrite T in H. discriminate. }
  split; [intros v; split; discriminate|].
  split; [intros v [->|[b ->]]; [split; reflexivity|destruct b; split; reflexivity]|].
  split. { intros z. cbn [converted py_str]. f_equal. f_equal.
    rewrite lower_print_Z. destruct (str_eqb_spec (print_Z z) (py "true")) as [E|]; [|reflexivity].
    exfalso. exact (print_Z_true z E). }
  split; [reflexivity|].
  split; [intros z; cbn [converted py_str]; now rewrite py_int_print_Z|].
  intros u U. cbn [converted py_str]. now rewrite xid_roundtrip.
Qed.
Print Assumptions C85_kinds.

(** A text attribute holding an int with an int attribute holding a text below it; a truth
    value attribute holding a text. *)
Definition loose_attr : attr :=
  mk_attr CLiteral (py "a") None (PInt 5) [] [(py "b", mk_attr CDiscrete (py "b") None (PStr (py " 07 ")) [] [])].
Definition loose_log (v : pyval) : xlog :=
  mk_log [] [mk_trace [(py "a", loose_attr)] [mk_event 1 [(py "c", mk_attr CBoolean (py "c") None (PStr (py "TRUE")) [] []);
                                                           (py "d", mk_attr CDiscrete (py "d") None v [] [])]]] [] [] [] [] [].
Example C85_example :
  keyed_log (loose_log (PInt 1)) /\ (exists doc, @xes_serialize no_floats (loose_log (PInt 1)) = Ok doc)
  /\ Forall plain_date (written_attrs (loose_log (PInt 1))) /\ Forall (@convertible no_floats) (written_attrs (loose_log (PInt 1)))
  /\ @turned no_floats sample_mgr loose_attr
       (mk_attr CLiteral (py "a") None (PStr (py "5")) [] [(py "b", mk_attr CDiscrete (py "b") None (PInt 7) [] [])])
  /\ (exists doc, @xes_serialize no_floats (loose_log (PBool true)) = Ok doc)
  /\ Forall plain_date (written_attrs (loose_log (PBool true)))
  /\ Exists (fun a => ~ @convertible no_floats a) (written_attrs (loose_log (PBool true)))
  /\ ~ Forall dated (written_attrs (mk_log [(py "t", mk_attr CTimestamp (py "t") None (PInt 3) [] [])] [] [] [] [] [] [])).
Proof.
  split. { split; [split; [split; constructor|constructor]|]. constructor; [|constructor].
    split; [split; [keyed_ok|cbn; repeat (apply Forall_cons; [well_keyed_ok|]); apply Forall_nil]|].
    constructor; [|constructor]. split; [keyed_ok|cbn; repeat (apply Forall_cons; [well_keyed_ok|]); apply Forall_nil]. }
  split; [eexists; vm_compute; reflexivity|].
  assert (P : forall v, Forall plain_date (written_attrs (loose_log v))).
  { intros v. cbn. repeat (apply Forall_cons; [intros d; discriminate|]). apply Forall_nil. }
  split; [apply P|]. split.
  { cbn. repeat (apply Forall_cons; [intros H; vm_compute in H; discriminate H|]). apply Forall_nil. }
  split.
  { refine (turned_plain sample_mgr CLiteral (py "a") None (PInt 5) [] _ _ _ eq_refl _ _); [vm_compute; reflexivity|].
    constructor; [|constructor]. split; [reflexivity|].
    refine (turned_plain sample_mgr CDiscrete (py "b") None (PStr (py " 07 ")) [] [] _ [] eq_refl _ _); [vm_compute; reflexivity|constructor]. }
  split; [eexists; vm_compute; reflexivity|]. split; [apply P|]. split.
  { cbn. do 3 apply Exists_cons_tl. apply Exists_cons_hd. intros H. apply H. vm_compute. reflexivity. }
  intros H. inversion H as [|? ? D _]; subst. destruct (D eq_refl) as [d E]. discriminate E.
Qed.
