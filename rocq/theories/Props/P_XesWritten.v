(** C94. The XES document written for a log. *)
From Coq Require Import String NArith ZArith List Bool.
From Verif Require Import Base.PyBase Base.PyDate Base.PyVal Base.Xml Model.Attr Model.Log Model.XesWrite
  Spec.DateText Spec.Typing Spec.Loose Spec.XesWritten Proofs.XesWrittenFacts.
Import ListNotations.

(** C94.  If values have the type of their class, the document written is the one that stands
    for the log: one element per extension, global scope, classifier, attribute, trace and
    event, in this order, values as texts of their type. *)
Theorem C94_document : forall (FIO : FloatIO) l, Forall proper (written_attrs l) ->
  exists doc, xes_serialize l = Ok doc /\ log_elem l doc.
Proof. intros FIO. exact log_written. Qed.
Print Assumptions C94_document.

(** C94.  The texts of numbers, identifiers and date-times. *)
Theorem C94_texts : forall (FIO : FloatIO) k e m,
  (forall z, exists t, attr_str (mk_attr CDiscrete k e (PInt z) [] m) = Ok t /\ int_text z t)
  /\ (forall u, (u < 2 ^ 128)%N -> exists t, attr_str (mk_attr CID k e (PXid u) [] m) = Ok t /\ id_text u t)
  /\ (forall d, valid_dt d = true -> minute_zone d ->
        exists t, attr_str (mk_attr CTimestamp k e (PDate d) [] m) = Ok t /\ date_text d t).
Proof.
  exact (fun FIO k e m => conj (fun z => ex_intro _ _ (conj eq_refl (print_Z_text z)))
    (conj (fun u H => ex_intro _ _ (conj eq_refl (xid_text u H)))
       (fun d V M => ex_intro _ _ (conj eq_refl (timestamp_text d V M))))).
Qed.
Print Assumptions C94_texts.

(** C94.  It is not the case that every date-time is written with a zone: those in UTC are
    written without any, although those without a zone are marked as UTC. *)
Theorem C94_zone_refuted : exists (FIO : FloatIO) d d' t,
  tz d = Some (mk_tz 0 None) /\ tz d' = None
  /\ attr_str (mk_attr CTimestamp (py "k") None (PDate d) [] []) = Ok t
  /\ attr_str (mk_attr CTimestamp (py "k") None (PDate d') [] []) = Ok (t ++ py "Z")
  /\ t = py "2020-02-29T12:00:01.999".
Proof.
  exists no_floats, (mk_dt 2020 2 29 12 0 1 999999 (Some (mk_tz 0 None))), (mk_dt 2020 2 29 12 0 1 999999 None).
  eexists. repeat split.
Qed.
Print Assumptions C94_zone_refuted.

Definition rich : xlog :=
  mk_log [(py "n", mk_attr CDiscrete (py "n") None (PInt (-120)) []
             [(py "b", mk_attr CBoolean (py "b") None (PBool true) [] [])])]
    [mk_trace [(py "l", mk_attr CList (py "l") None PNone [mk_attr CLiteral (py "x") None (PStr (py "<&")) [] []] [])]
       [mk_event 7 [(py "d", mk_attr CTimestamp (py "d") None
          (PDate (mk_dt 2020 2 29 12 0 1 999999 (Some (mk_tz (-5400000000) None)))) [] [])]]]
    [mk_xext (py "Concept") (py "concept") (py "u")] [mk_cl (py "c") [py "a b"; []; py "c"]]
    [] [mk_attr CID (py "i") None (PXid 171) [] []] [].
Example C94_rich : exists doc, Forall proper (written_attrs rich) /\ xes_serialize (FIO := no_floats) rich = Ok doc
  /\ doc = XElem (py "log")
       [(py "xes.version", py "1.0"); (py "xes.features", py "nested-attributes"); (py "openxes.version", py "1.0RC7")]
       [XElem (py "extension") [(py "name", py "Concept"); (py "prefix", py "concept"); (py "uri", py "u")] [];
        XElem (py "global") [(py "scope", py "event")]
          [XElem (py "id") [(py "key", py "i"); (py "value", py "00000000-0000-0000-0000-0000000000AB")] []];
        XElem (py "classifier") [(py "name", py "c"); (py "keys", py "'a b' c")] [];
        XElem (py "int") [(py "key", py "n"); (py "value", py "-120")]
          [XElem (py "boolean") [(py "key", py "b"); (py "value", py "true")] []];
        XElem (py "trace") []
          [XElem (py "list") [(py "key", py "l")] [XElem (py "string") [(py "key", py "x"); (py "value", py "<&")] []];
           XElem (py "event") []
             [XElem (py "date") [(py "key", py "d"); (py "value", py "2020-02-29T12:00:01.999-01:30")] []]]].
Proof.
  eexists. split; [|split; [vm_compute; reflexivity|vm_compute; reflexivity]].
  repeat apply Forall_cons; try apply Forall_nil; cbn; try exact Logic.I; try reflexivity.
  split; [reflexivity|]. split; [reflexivity|]. now exists (-90)%Z.
Qed.
