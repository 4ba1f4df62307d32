(** Properties of extension objects and extension definition files (C58, C59). *)
From Coq Require Import String NArith ZArith List Bool SpecFloat.
From Verif Require Import Base.PyBase Base.PyDate Base.PyVal Base.Xml Model.Attr Model.NameMap Model.ExtParse
  Spec.Registries Spec.ExtDef Proofs.ExtFacts.
Import ListNotations.

(** ** C58: extension definitions *)

(** Whatever the document (also one that is not well formed) and the behaviour of the network:
    the extension returned is the last one reached; its log attributes are exactly the
    attributes declared after it, at whatever level, and the other three sets are empty. *)
Theorem C58_contents : forall urlparse urlopen draw epoch es g s x after,
  ext_run urlparse urlopen draw epoch es (es_init g) = Ok s ->
  last_reached urlparse urlopen es x after ->
  exists o, e_ext s = Some o /\ xo_id o = x
    /\ xo_trace o = [] /\ xo_event o = [] /\ xo_meta o = []
    /\ (forall b, In b (xo_log o) -> exists t a c k,
          In (SStart t a) after /\ tag_class t c /\ sget (py "key") a = Some k /\ declared_as x c k b /\ default_value epoch b)
    /\ (forall t a c, In (SStart t a) after -> tag_class t c ->
          exists k b, sget (py "key") a = Some k /\ In b (xo_log o) /\ declared_as x c k b).
Proof. exact last_contents. Qed.
Print Assumptions C58_contents.
(** If none is reached there is no extension, and then no level or attribute was named. *)
Theorem C58_none : forall urlparse urlopen draw epoch es g s,
  ext_run urlparse urlopen draw epoch es (es_init g) = Ok s -> none_reached urlparse urlopen es ->
  e_ext s = None /\ forall e, In e es -> ~ is_level e /\ forall t a c, e = SStart t a -> ~ tag_class t c.
Proof. exact none_contents. Qed.
Print Assumptions C58_none.
Theorem C58_cases : forall urlparse urlopen es,
  none_reached urlparse urlopen es \/ exists x after, last_reached urlparse urlopen es x after.
Proof. exact reached_or_not. Qed.
Print Assumptions C58_cases.
(** Without a network no definition with a level or an attribute can be read. *)
Theorem C58_offline : forall urlparse urlopen draw epoch es g,
  (forall n u, urlopen n u = Unreachable) ->
  (forall e, In e es -> complete_ext urlparse e) ->
  (exists e, In e es /\ (is_level e \/ exists t a c, e = SStart t a /\ tag_class t c)) ->
  ext_run urlparse urlopen draw epoch es (es_init g) = Raise AttributeError.
Proof.
  intros urlparse urlopen draw epoch es g OFF CP B. exact (offline_from urlparse urlopen draw epoch es OFF CP (es_init g) eq_refl eq_refl B).
Qed.
Print Assumptions C58_offline.
(** An alias given inside an attribute element is registered for that attribute under the
    mapping it names; it stays unless a later alias writes to the same mapping. *)
Theorem C58_alias : forall urlparse urlopen draw epoch b ta ka mid tl la c h s x after k m n cl,
  ext_run urlparse urlopen draw epoch (b ++ SStart ta ka :: mid ++ SStart tl la :: c) (es_init (nrun h)) = Ok s ->
  last_reached urlparse urlopen b x after ->
  tag_class ta cl -> sget (py "key") ka = Some k ->
  (forall e, In e mid -> ~ is_attribute e) ->
  lower tl = py "alias" -> sget (py "mapping") la = Some m -> sget (py "name") la = Some n ->
  (forall e, In e c -> ~ is_alias_of m e) ->
  named_map (e_names s) m (x_prefix x ++ py ":" ++ k) = Some n.
Proof. exact alias_registered. Qed.
Print Assumptions C58_alias.
(** An alias outside attribute elements is as good as absent. *)
Theorem C58_stray_alias : forall urlparse urlopen draw epoch b tl la c g, no_attribute_open b -> lower tl = py "alias" ->
  ext_run urlparse urlopen draw epoch (b ++ SStart tl la :: c) (es_init g) = ext_run urlparse urlopen draw epoch (b ++ c) (es_init g).
Proof. exact stray_alias. Qed.
Print Assumptions C58_stray_alias.
Example C58_stray_ex :
  let b := [SStart (py "string") [(py "key", py "a")]; SEnd (py "string")] in
  no_attribute_open b /\ lower (py "Alias") = py "alias".
Proof.
  split; [|reflexivity]. right. exists [SStart (py "string") [(py "key", py "a")]], (py "string"), CLiteral, [].
  repeat split; [now left|intros e []].
Qed.

(** A definition with attributes on trace and event level. *)
Definition demo_doc : xnode :=
  XElem (py "xesextension") [(py "name", py "Demo"); (py "prefix", py "d"); (py "uri", py "http://d")]
    [XElem (py "trace") [] [XElem (py "string") [(py "key", py "a")]
       [XElem (py "alias") [(py "mapping", py "EN"); (py "name", py "The A")] []]];
     XElem (py "Event") [] [XElem (py "INT") [(py "key", py "b")] []; XElem (py "int") [(py "key", py "b")] []];
     XElem (py "meta") [] [XElem (py "id") [(py "key", py "c")] []]].
Definition demo_epoch : datetime := mk_dt 1970 1 1 0 0 0 0 None.
Definition demo_x : xext := mk_xext (py "Demo") (py "d") (py "http://d").
Definition demo_parse (net : opened) :=
  ext_parse (fun u => Ok u) (fun _ _ => net) (fun n => N.of_nat n) demo_epoch (Some demo_doc) (nrun []).
Example C58_ex :
  last_reached (fun u => Ok u) (fun _ _ => Opened) (sax_of demo_doc) demo_x (tl (sax_of demo_doc))
  /\ (let! (o, g) := demo_parse Opened in
      Ok (option_map (fun o => (map (fun a => (a_cls a, a_key a)) (xo_log o), xo_trace o, xo_event o, xo_meta o)) o,
          named_map g (py "EN") (py "d:a")))
     = Ok (Some ([(CLiteral, py "d:a"); (CDiscrete, py "d:b"); (CID, py "d:c")], [], [], []), Some (py "The A"))
  /\ demo_parse Unreachable = Raise AttributeError.
Proof.
  split; [|split; vm_compute; reflexivity].
  exists [], (hd (SEnd []) (sax_of demo_doc)). split; [reflexivity|]. split.
  - eexists _, _, _. split; [reflexivity|]. repeat split; reflexivity.
  - intros b e' c x' E (t & a & u & -> & T & _).
    assert (I0 : In (SStart t a) (tl (sax_of demo_doc))) by (rewrite E; apply in_elt).
    cbn in I0. repeat (destruct I0 as [I0|I0]; [first [discriminate I0|injection I0 as <- <-; discriminate T]|]). destruct I0.
Qed.

(** ** C59: the cached union *)

(** The first query returns the union of the four levels at that time; every later query
    returns the same, whatever was done to the levels in between. *)
Theorem C59_frozen : forall x h h', xo_all x = None -> forallb (fun o => negb (is_query o)) h = true ->
  let x1 := xo_run h x in
  let d := snd (xo_defined x1) in
  (forall a, In a d -> exists l, In a (xo_level l x1))
  /\ (forall l a, In a (xo_level l x1) -> represented a d)
  /\ snd (xo_defined (xo_run (h ++ XQuery :: h') x)) = d.
Proof. exact defined_frozen. Qed.
Print Assumptions C59_frozen.
(** The four levels are edited apart, and queries do not change them. *)
Theorem C59_levels : forall h x l, xo_level l (xo_run h x) = fold_left (fun s f => f s) (edits_of l h) (xo_level l x).
Proof. exact levels_apart. Qed.
Print Assumptions C59_levels.
(** So an attribute added after the first query is missing. *)
Theorem C59_later_refuted : exists x l a, ~ represented a (snd (xo_defined (xo_run [XQuery; XEdit l (aset_add a)] x)))
  /\ In a (xo_level l (xo_run [XQuery; XEdit l (aset_add a)] x)).
Proof.
  exists (xo_new demo_x), LEvent, (mk_attr CLiteral (py "k") None PNone [] []).
  split; [intros (b & [] & _)|now left].
Qed.
Print Assumptions C59_later_refuted.
Example C59_ex :
  let a := mk_attr CLiteral (py "a") None (PStr (py "x")) [] [] in
  let b := mk_attr CDiscrete (py "b") None (PInt 1) [] [] in
  let h := [XEdit LTrace (aset_add a); XEdit LMeta (aset_add b); XEdit LLog (aset_add a)] in
  xo_all (xo_new demo_x) = None /\ forallb (fun o => negb (is_query o)) h = true
  /\ snd (xo_defined (xo_run h (xo_new demo_x))) = [a; b]
  /\ snd (xo_defined (xo_run (h ++ [XQuery; XEdit LEvent (aset_add (mk_attr CBoolean (py "z") None (PBool true) [] []))]) (xo_new demo_x))) = [a; b].
Proof. repeat split; vm_compute; reflexivity. Qed.
