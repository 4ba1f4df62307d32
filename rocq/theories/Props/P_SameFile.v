(** C104: when two logs have the same file. *)
From Coq Require Import String NArith ZArith List Bool.
From Verif Require Import Base.PyBase Base.PyDate Base.PyVal Base.Xml Model.Attr Model.Log Model.XmlChars Model.XesWrite Model.MxmlWrite Model.FileNames Model.Files
  Base.Codec Spec.OnDisk
  Spec.Typing Spec.DateText Spec.Registries Spec.Xes Spec.Loose Spec.XesWritten Spec.XmlNorm Spec.XmlLines Spec.SameFile Proofs.SameFileFacts.
Import ListNotations.
Local Open Scope N_scope.

(** Different documents have different files: no text of one log can make up the elements of
    another. *)
Theorem C104_xes : forall (FIO : FloatIO) l m doc doc2 text text2, xes_serialize l = Ok doc -> xes_serialize m = Ok doc2 ->
  write_xml xes_comments doc = Some text -> write_xml xes_comments doc2 = Some text2 -> (text = text2 <-> doc = doc2).
Proof. exact @xes_same_tree. Qed.
Print Assumptions C104_xes.
Theorem C104_mxml : forall (FIO : FloatIO) l m doc doc2 text text2, mxml_serialize l = Ok doc -> mxml_serialize m = Ok doc2 ->
  write_xml mxml_comments doc = Some text -> write_xml mxml_comments doc2 = Some text2 -> (text = text2 <-> lf_texts doc = lf_texts doc2).
Proof. exact @mxml_same_tree. Qed.
Print Assumptions C104_mxml.

(** What an XES file holds of a log. *)
Theorem C104_log : forall (FIO : FloatIO) l m doc doc2 text text2, Forall proper (written_attrs l) -> Forall proper (written_attrs m) ->
  xes_serialize l = Ok doc -> xes_serialize m = Ok doc2 ->
  write_xml xes_comments doc = Some text -> write_xml xes_comments doc2 = Some text2 -> (text = text2 <-> same_log l m).
Proof. exact @same_file. Qed.
Print Assumptions C104_log.

(** The same for the bytes on the disk, of plain files as they are, of compressed files when
    unpacked: gzip writes the time and the name of the file too, so each save has its own
    compressor. *)
Theorem C104_saved : forall (FIO : FloatIO) (G1 G2 : Gzip) wr p l m path path2 d d' d1 d2,
  lawful_gzip G1 -> lawful_gzip G2 -> same_unpacking G1 G2 -> zipped p = true \/ lawful wr -> In p [Xes; XesGzip] ->
  Forall proper (written_attrs l) -> Forall proper (written_attrs m) ->
  save (GZ := G1) wr p l path d = (d1, Ok tt) -> save (GZ := G2) wr p m path2 d' = (d2, Ok tt) ->
  exists b c, sget path d1 = Some b /\ sget path2 d2 = Some c
  /\ (same_log l m <-> unpacked (GZ := G1) p b = unpacked (GZ := G1) p c) /\ (b = c -> same_log l m).
Proof. exact @same_saved. Qed.
Print Assumptions C104_saved.

(** Two logs of the same file that differ in all that is not kept: the identifier of the event,
    the extension, the name of an attribute in its map, microseconds, and the value and the
    attributes of a list; and a third of another file, that differs in the zone only. *)
Definition one (id : N) (x : option xext) (name : pystr) (micros : Z) (z : option tzone) (v : pyval) (m : sdict attr) : xlog :=
  mk_log [] [mk_trace [] [mk_event id
    [(name, mk_attr CTimestamp (py "d") x (PDate (mk_dt 2020 2 29 12 0 1 micros z)) [] []);
     (py "l", mk_attr CList (py "l") None v [mk_attr CLiteral (py "k") None (PStr (py "<&")) [] []] m)]]] [] [] [] [] [].
Definition one_a := one 7 None (py "d") 999000 None PNone [].
Definition one_b := one 8 (Some (mk_xext (py "T") (py "t") (py "u"))) (py "e") 999999 None (PInt 4)
  [(py "q", mk_attr CDiscrete (py "q") None (PInt 1) [] [])].
Definition one_c := one 7 None (py "d") 999000 (Some (mk_tz 0 None)) PNone [].
Example C104_ex : Forall proper (written_attrs one_a) /\ Forall proper (written_attrs one_b) /\ Forall proper (written_attrs one_c)
  /\ same_log (FIO := no_floats) one_a one_b /\ one_a <> one_b
  /\ exists a b c ta tb tc, xes_serialize (FIO := no_floats) one_a = Ok a /\ xes_serialize (FIO := no_floats) one_b = Ok b
     /\ xes_serialize (FIO := no_floats) one_c = Ok c
     /\ write_xml xes_comments a = Some ta /\ write_xml xes_comments b = Some tb /\ write_xml xes_comments c = Some tc
     /\ ta = tb /\ ta <> tc.
Proof.
  assert (M : minute_zone (mk_dt 2020 2 29 12 0 1 999000 (Some (mk_tz 0 None)))) by (split; [reflexivity|now exists 0%Z]).
  split; [|split; [|split]]; [repeat (constructor; [repeat split|]); constructor..| | ].
  { repeat (constructor; [first [exact (conj eq_refl M)|exact Logic.I]|]). constructor. }
  split; [|split].
  - repeat (split; [now constructor|]). constructor; [|constructor]. split; [constructor|]. constructor; [|constructor].
    constructor; [|constructor; [|constructor]].
    + apply same_typed; [reflexivity|repeat split|constructor].
    + apply same_coll; [reflexivity|]. constructor; [|constructor]. apply same_typed; [reflexivity|reflexivity|constructor].
  - discriminate.
  - do 6 eexists. repeat (split; [vm_compute; reflexivity|]). vm_compute. discriminate.
Qed.

(** Compressors with a one-byte header and a byte for the time. *)
Definition at_time (t : N) : Gzip :=
  {| gz := fun b => 31 :: t :: b; gunz := fun b => match b with 31 :: _ :: r => Some r | _ => None end |}.
Example C104_saved_ex : lawful_gzip (at_time 5) /\ lawful_gzip (at_time 6) /\ same_unpacking (at_time 5) (at_time 6)
  /\ exists b c e, save (FIO := no_floats) (GZ := at_time 5) ascii XesGzip one_a (py "a.xes.gz") [] = ([(py "a.xes.gz", b)], Ok tt)
  /\ save (FIO := no_floats) (GZ := at_time 6) ascii XesGzip one_b (py "b.xes.gz") [] = ([(py "b.xes.gz", c)], Ok tt)
  /\ save (FIO := no_floats) (GZ := at_time 6) ascii XesGzip one_c (py "b.xes.gz") [] = ([(py "b.xes.gz", e)], Ok tt)
  /\ b <> c /\ @gunz (at_time 5) b = @gunz (at_time 5) c /\ @gunz (at_time 5) b <> @gunz (at_time 5) e.
Proof.
  split; [intros b; reflexivity|]. split; [intros b; reflexivity|]. split; [intros b; reflexivity|].
  do 3 eexists. do 3 (split; [vm_compute; reflexivity|]). split; [vm_compute; discriminate|].
  split; [vm_compute; reflexivity|]. vm_compute. discriminate.
Qed.

(** The keys of a classifier do count only as they are written: two keys with quotation marks
    and one with a space give the same file. *)
Definition keyed (ks : list pystr) : xlog := mk_log [] [] [] [mk_cl (py "c") ks] [] [] [].
Theorem C104_keys_refuted : exists ks ls doc doc2 text, ks <> ls
  /\ xes_serialize (FIO := no_floats) (keyed ks) = Ok doc /\ xes_serialize (FIO := no_floats) (keyed ls) = Ok doc2
  /\ write_xml xes_comments doc = Some text /\ write_xml xes_comments doc2 = Some text.
Proof.
  exists [py "'a"; py "b'"], [py "a b"]. do 3 eexists. split; [discriminate|]. repeat (split; [vm_compute; reflexivity|]). vm_compute. reflexivity.
Qed.
Print Assumptions C104_keys_refuted.

(** In MXML two logs of the same file may differ in CR and LF in a text, but not in more. *)
Definition named (n : pystr) : xlog :=
  mk_log [] [mk_trace [] [mk_event 7 [(py "concept:name", mk_attr CLiteral (py "concept:name") None (PStr n) [] [])]]] [] [] [] [] [].
Example C104_mxml_ex : exists a b c ta tb tc, mxml_serialize (FIO := no_floats) (named (py "x" ++ 13 :: py "y")) = Ok a
  /\ mxml_serialize (FIO := no_floats) (named (py "x" ++ 10 :: py "y")) = Ok b /\ mxml_serialize (FIO := no_floats) (named (py "x y")) = Ok c
  /\ write_xml mxml_comments a = Some ta /\ write_xml mxml_comments b = Some tb /\ write_xml mxml_comments c = Some tc
  /\ a <> b /\ lf_texts a = lf_texts b /\ ta = tb /\ ta <> tc.
Proof.
  do 6 eexists. repeat (split; [vm_compute; reflexivity|]). split; [vm_compute; discriminate|].
  repeat (split; [vm_compute; reflexivity|]). vm_compute. discriminate.
Qed.
