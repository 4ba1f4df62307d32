(** C91: which extension definitions are read, and what the parser raises for the others. *)
From Coq Require Import String NArith ZArith List Bool SpecFloat.
From Verif Require Import Base.PyBase Base.PyDate Base.PyVal Base.Xml Model.Attr Model.NameMap Model.ExtParse
  Spec.ExtDef Spec.ExtFaults Proofs.ExtFacts Proofs.ExtFaultFacts Props.P_ExtDef.
Import ListNotations.

(** Whatever tags the parser is fed: it returns iff none of them is at fault, and otherwise the
    exception is that of the first faulty tag. *)
Theorem C91_first_fault : forall urlparse urlopen draw epoch es g,
  match ext_run urlparse urlopen draw epoch es (es_init g) with
  | Ok _ => faultless urlparse urlopen es
  | Raise e => exists b t a c, es = b ++ SStart t a :: c /\ faultless urlparse urlopen b /\ fault urlparse urlopen b t a e
  end.
Proof. exact ext_outcome. Qed.
Print Assumptions C91_first_fault.

(** A document whose root is an extension that can be reached, and whose other tags are
    complete, is read. *)
Theorem C91_good : forall urlparse urlopen draw epoch t a kids x g, reached urlparse urlopen 0 (SStart t a) x ->
  (forall t' a', In (SStart t' a') (flat_map sax_of kids) -> good_tag t' a') ->
  exists o g', ext_parse urlparse urlopen draw epoch (Some (XElem t a kids)) g = Ok (Some o, g') /\ xo_id o = x.
Proof. exact good_document. Qed.
Print Assumptions C91_good.

(** Besides what opening an address may raise there are three exceptions. *)
Theorem C91_exceptions : forall urlparse urlopen draw epoch es g e,
  (forall u x, urlparse u = Raise x -> x = ValueError) ->
  ext_run urlparse urlopen draw epoch es (es_init g) = Raise e ->
  In e [KeyError; AttributeError; ValueError] \/ exists n u, urlopen n u = Broken e.
Proof. exact ext_exceptions. Qed.
Print Assumptions C91_exceptions.

(** A directory gives no extension and changes no name. *)
Theorem C91_nothing : forall urlparse urlopen draw epoch doc g o g',
  ext_parse urlparse urlopen draw epoch doc g = Ok (o, g') ->
  match doc with
  | None => o = None /\ g' = g
  | Some d => (o = None <-> none_reached urlparse urlopen (sax_of d))
  end.
Proof. exact nothing_parsed. Qed.
Print Assumptions C91_nothing.

Definition ok_url (u : pystr) : res pystr := if str_eqb u (py "http://[") then Raise ValueError else Ok u.
Definition only_one (n : nat) (u : pystr) : opened := match n with 0 => Opened | _ => Broken OSError end.
Definition ext_atts : sdict pystr := [(py "name", py "Demo"); (py "prefix", py "d"); (py "uri", py "http://d")].
Definition outcome (es : list sax) : option exn :=
  match ext_run ok_url only_one (fun _ => 0%N) demo_epoch es (es_init (nrun [])) with Ok _ => None | Raise e => Some e end.
Example C91_example :
  let x := SStart (py "xesextension") ext_atts in
  let k := [(py "key", py "a")] in
  outcome [x; SStart (py "log") []; SStart (py "string") k; SStart (py "alias") [(py "mapping", py "EN"); (py "name", py "A")]] = None
  /\ outcome [SStart (py "xesExtension") (tl ext_atts)] = Some KeyError
  /\ outcome [SStart (py "xesextension") (sset (py "uri") (py "http://[") ext_atts)] = Some ValueError
  /\ outcome [x; x; SStart (py "string") []] = Some OSError
  /\ outcome [SStart (py "Log") []; x] = Some AttributeError
  /\ outcome [SStart (py "int") []; x] = Some AttributeError
  /\ outcome [x; SStart (py "int") []; SStart (py "log") []] = Some KeyError
  /\ outcome [x; SStart (py "int") k; SStart (py "Alias") [(py "mapping", py "EN")]] = Some KeyError
  /\ outcome [x; SStart (py "int") k; SEnd (py "int"); SStart (py "Alias") []] = None.
Proof. vm_compute. repeat split. Qed.
Example C91_good_ex :
  reached ok_url only_one 0 (SStart (py "xesextension") ext_atts) (mk_xext (py "Demo") (py "d") (py "http://d"))
  /\ good_tag (py "string") [(py "key", py "a")] /\ good_tag (py "event") [] /\ good_tag (py "other") [].
Proof.
  split; [exists (py "xesextension"), ext_atts, (py "http://d"); repeat split; reflexivity|].
  assert (NA : forall t : string, lower (py t) <> py "xesextension" -> lower (py t) <> py "alias" -> forall a,
    (decl_tag (lower (py t)) = None \/ sget (py "key") a <> None) -> good_tag (py t) a).
  { intros t N1 N2 a D. split; [exact N1|]. split; [|intros E; contradiction].
    intros [c T] L. apply decl_tag_spec in T. apply lacks_one in L. destruct D; congruence. }
  split; [|split]; apply NA; try discriminate; [now right|now left|now left].
Qed.
