(** What the constructors of the standard extensions do: /repo/src/opyenxes/extension/std. *)
From Coq Require Import String NArith ZArith List Bool SpecFloat.
From Verif Require Import Base.PyBase Base.PyDate Base.PyVal Model.Attr Model.NameMap Model.ExtParse Model.StdExt.
Import ListNotations.

(** The three fields, the templates put into the attribute sets (each cloned first, except the
    time stamp, which makes no difference to the contents), and the names registered, with
    mapping, key and alias. *)
Record std_init : Type := mk_si {
  si_id : xext; si_adds : list (level * attr); si_names : list (pystr * pystr * pystr)
}.

(** The templates with a random id or the local time of the epoch: XIdentityExtension.py:18,
    XMicroExtension.py:20, XTimeExtension.py:21. *)
Definition template_id (i : N) : attr := mk_attr CID (py "identity:id") (Some ext_identity) (PXid i) [] [].
Definition template_pid (i : N) : attr := mk_attr CID (py "micro:parentId") (Some ext_micro) (PXid i) [] [].
Definition template_time (t : datetime) : attr := mk_attr CTimestamp (py "time:timestamp") (Some ext_time) (PDate t) [] [].

(** XConceptExtension.__init__: XConceptExtension.py:21-34. *)
Definition init_concept : std_init := mk_si ext_concept
  [(LLog, ATTR_NAME); (LTrace, ATTR_NAME); (LEvent, ATTR_NAME); (LEvent, ATTR_INSTANCE)]
  [(py "EN", py "concept:name", py "Name");
   (py "EN", py "concept:instance", py "Instance");
   (py "DE", py "concept:name", py "Name");
   (py "DE", py "concept:instance", py "Instanz");
   (py "FR", py "concept:name", py "Appellation");
   (py "FR", py "concept:instance", py "Entit" ++ [233%N]);
   (py "ES", py "concept:name", py "Nombre");
   (py "ES", py "concept:instance", py "Instancia");
   (py "PT", py "concept:name", py "Nome");
   (py "PT", py "concept:instance", py "Inst" ++ [226%N] ++ py "ncia")].
(** XCostExtension.__init__: XCostExtension.py:113-125. *)
Definition init_cost : std_init := mk_si ext_cost
  [(LTrace, ATTR_TOTAL); (LTrace, ATTR_CURRENCY); (LEvent, ATTR_TOTAL); (LEvent, ATTR_CURRENCY); (LEvent, ATTR_AMOUNT); (LEvent, ATTR_DRIVER); (LEvent, ATTR_TYPE)]
  [(py "EN", py "cost:total", py "Total Cost");
   (py "EN", py "cost:currency", py "Currency of Cost");
   (py "EN", py "cost:amount", py "Cost Amount");
   (py "EN", py "cost:driver", py "Cost Driver");
   (py "EN", py "cost:type", py "Cost Type")].
(** XIdentityExtension.__init__: XIdentityExtension.py:19-27. *)
Definition init_identity (i : N) : std_init := mk_si ext_identity
  [(LLog, template_id i); (LTrace, template_id i); (LEvent, template_id i); (LMeta, template_id i)]
  [(py "EN", py "identity:id", py "Identity");
   (py "DE", py "identity:id", py "Identit" ++ [228%N] ++ py "t");
   (py "FR", py "identity:id", py "Identit" ++ [233%N]);
   (py "ES", py "identity:id", py "Identidad");
   (py "PT", py "identity:id", py "Identidade")].
(** XLifecycleExtension.__init__: XLifecycleExtension.py:69-80. *)
Definition init_lifecycle : std_init := mk_si ext_lifecycle
  [(LLog, ATTR_MODEL); (LEvent, ATTR_TRANSITION)]
  [(py "EN", py "lifecycle:model", py "Lifecycle Model");
   (py "EN", py "lifecycle:transition", py "Lifecycle Transition");
   (py "DE", py "lifecycle:model", py "Lebenszyklus-Model");
   (py "DE", py "lifecycle:transition", py "Lebenszyklus-Transition");
   (py "FR", py "lifecycle:model", py "Mod" ++ [232%N] ++ py "le du Cycle Vital");
   (py "FR", py "lifecycle:transition", py "Transition en Cycle Vital");
   (py "ES", py "lifecycle:model", py "Modelo de Ciclo de Vida");
   (py "ES", py "lifecycle:transition", py "Transici" ++ [243%N] ++ py "n en Ciclo de Vida");
   (py "PT", py "lifecycle:model", py "Modelo do Ciclo de Vida");
   (py "PT", py "lifecycle:transition", py "Transi" ++ [231%N] ++ [227%N] ++ py "o do Ciclo de Vida")].
(** XMicroExtension.__init__: XMicroExtension.py:23-29. *)
Definition init_micro (i : N) : std_init := mk_si ext_micro
  [(LEvent, ATTR_LEVEL); (LEvent, template_pid i); (LEvent, ATTR_LENGTH)]
  [(py "EN", py "micro:level", py "Micro level of this event");
   (py "EN", py "micro:parentId", py "Id of parent event of this event");
   (py "EN", py "micro:length", py "Number of child events for this event")].
(** XOrganizationalExtension.__init__: XOrganizationalExtension.py:26-43. *)
Definition init_org : std_init := mk_si ext_org
  [(LEvent, ATTR_RESOURCE); (LEvent, ATTR_ROLE); (LEvent, ATTR_GROUP)]
  [(py "EN", py "org:resource", py "Resource");
   (py "EN", py "org:role", py "Role");
   (py "EN", py "org:group", py "Group");
   (py "DE", py "org:resource", py "Akteur");
   (py "DE", py "org:role", py "Rolle");
   (py "DE", py "org:group", py "Gruppe");
   (py "FR", py "org:resource", py "Agent");
   (py "FR", py "org:role", py "R" ++ [244%N] ++ py "le");
   (py "FR", py "org:group", py "Groupe");
   (py "ES", py "org:resource", py "Recurso");
   (py "ES", py "org:role", py "Papel");
   (py "ES", py "org:group", py "Grupo");
   (py "PT", py "org:resource", py "Recurso");
   (py "PT", py "org:role", py "Papel");
   (py "PT", py "org:group", py "Grupo")].
(** XSemanticExtension.__init__: XSemanticExtension.py:21-30. *)
Definition init_semantic : std_init := mk_si ext_semantic
  [(LEvent, ATTR_MODELREFERENCE); (LTrace, ATTR_MODELREFERENCE); (LLog, ATTR_MODELREFERENCE); (LMeta, ATTR_MODELREFERENCE)]
  [(py "EN", py "semantic:modelReference", py "Ontology Model Reference");
   (py "DE", py "semantic:modelReference", py "Ontologie-Modellreferenz");
   (py "FR", py "semantic:modelReference", py "R" ++ [233%N] ++ py "f" ++ [233%N] ++ py "rence au Mod" ++ [232%N] ++ py "le Ontologique");
   (py "ES", py "semantic:modelReference", py "Referencia de Modelo Ontol" ++ [243%N] ++ py "gico");
   (py "PT", py "semantic:modelReference", py "Refer" ++ [234%N] ++ py "ncia de Modelo Ontol" ++ [243%N] ++ py "gico")].
(** XTimeExtension.__init__: XTimeExtension.py:23-29. *)
Definition init_time (t : datetime) : std_init := mk_si ext_time
  [(LEvent, template_time t)]
  [(py "EN", py "time:timestamp", py "Timestamp");
   (py "DE", py "time:timestamp", py "Zeitstempel");
   (py "FR", py "time:timestamp", py "Horodateur");
   (py "ES", py "time:timestamp", py "Timestamp");
   (py "PT", py "time:timestamp", py "Timestamp")].

Inductive std : Type := SConcept | SCost | SIdentity | SLifecycle | SMicro | SOrg | SSemantic | STime.
Definition init_of (draw : std -> N) (t : datetime) (s : std) : std_init :=
  match s with
  | SConcept => init_concept | SCost => init_cost | SIdentity => init_identity (draw s) | SLifecycle => init_lifecycle
  | SMicro => init_micro (draw s) | SOrg => init_org | SSemantic => init_semantic | STime => init_time t
  end.

(** Running a constructor: the extension object and the global names afterwards. *)
Definition add_clone (x : xobj) (la : level * attr) : res xobj :=
  let! c := attr_clone (snd la) in Ok (xo_edit (fst la) (aset_add c) x).
Definition register_name (g : gmaps) (n : pystr * pystr * pystr) : gmaps :=
  gm_register g (fst (fst n)) (KStr (snd (fst n))) (PStr (snd n)).
Definition construct (draw : std -> N) (t : datetime) (s : std) (g : gmaps) : res (xobj * gmaps) :=
  let i := init_of draw t s in
  let! x := fold_res add_clone (si_adds i) (xo_new (si_id i)) in
  Ok (x, fold_left register_name (si_names i) g).
(** Several, one after the other (each is a singleton and is made when first asked for). *)
Definition construct_all (draw : std -> N) (t : datetime) (ss : list std) (g : gmaps) : res gmaps :=
  fold_res (fun g s => let! p := construct draw t s g in Ok (snd p)) ss g.
