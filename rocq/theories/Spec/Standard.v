(** The attributes the XES standard extensions define, and their names in five languages. *)
From Coq Require Import String NArith ZArith List Bool SpecFloat.
From Verif Require Import Base.PyBase Base.PyDate Base.PyVal Model.Attr Model.Registry Model.ExtParse Model.StdInit.
Import ListNotations.

(** Name, prefix and URI. *)
Definition standard_ext (name prefix : string) : xext :=
  mk_xext (py name) (py prefix) (py "http://www.xes-standard.org/" ++ py prefix ++ py ".xesext").
Definition id_of (s : std) : xext :=
  match s with
  | SConcept => standard_ext "Concept" "concept" | SCost => standard_ext "Cost" "cost"
  | SIdentity => standard_ext "Identity" "identity" | SLifecycle => standard_ext "Lifecycle" "lifecycle"
  | SMicro => standard_ext "Micro" "micro" | SOrg => standard_ext "Organizational" "org"
  | SSemantic => standard_ext "Semantic" "semantic" | STime => standard_ext "Time" "time"
  end.
Definition all_std : list std := [SConcept; SCost; SIdentity; SLifecycle; SMicro; SOrg; SSemantic; STime].

(** On which levels each key is defined. *)
Definition levels : list (pystr * list level) :=
  [(py "concept:name", [LLog; LTrace; LEvent]); (py "concept:instance", [LEvent]);
   (py "cost:total", [LTrace; LEvent]); (py "cost:currency", [LTrace; LEvent]);
   (py "cost:amount", [LEvent]); (py "cost:driver", [LEvent]); (py "cost:type", [LEvent]);
   (py "identity:id", [LLog; LTrace; LEvent; LMeta]);
   (py "lifecycle:model", [LLog]); (py "lifecycle:transition", [LEvent]);
   (py "micro:level", [LEvent]); (py "micro:parentId", [LEvent]); (py "micro:length", [LEvent]);
   (py "org:resource", [LEvent]); (py "org:role", [LEvent]); (py "org:group", [LEvent]);
   (py "semantic:modelReference", [LLog; LTrace; LEvent; LMeta]);
   (py "time:timestamp", [LEvent])].
(** The class and the value the defined attributes have. *)
Definition first_value (draw : std -> N) (t : datetime) (k : pystr) : acls * pyval :=
  let one_of := fun l => existsb (str_eqb k) (map py l) in
  if one_of ["micro:level"; "micro:length"]%string then (CDiscrete, PInt (-1))
  else if one_of ["cost:total"; "cost:amount"]%string then (CContinuous, PFloat (S754_zero false))
  else if one_of ["identity:id"]%string then (CID, PXid (draw SIdentity))
  else if one_of ["micro:parentId"]%string then (CID, PXid (draw SMicro))
  else if one_of ["time:timestamp"]%string then (CTimestamp, PDate t)
  else (CLiteral, PStr (py (if one_of ["lifecycle:model"]%string then "standart"
                            else if one_of ["lifecycle:transition"]%string then "complete" else "UNKNOWN"))).
Definition same_level (a b : level) : bool :=
  match a, b with LLog, LLog | LTrace, LTrace | LEvent, LEvent | LMeta, LMeta => true | _, _ => false end.
(** The keys with the prefix of an extension. *)
Definition owns (s : std) (k : pystr) : bool := starts_with (x_prefix (id_of s) ++ py ":") k.
Definition keys_at (s : std) (lv : level) : list pystr :=
  map fst (filter (fun r => owns s (fst r) && existsb (same_level lv) (snd r)) levels).

(** The names of each key, in the languages EN, DE, FR, ES, PT. *)
Definition languages : list pystr := [py "EN"; py "DE"; py "FR"; py "ES"; py "PT"].
Definition name_rows : list (pystr * list pystr) :=
  [(py "concept:name", [py "Name"; py "Name"; py "Appellation"; py "Nombre"; py "Nome"]);
   (py "concept:instance", [py "Instance"; py "Instanz"; py "Entit" ++ [233%N]; py "Instancia"; py "Inst" ++ [226%N] ++ py "ncia"]);
   (py "cost:total", [py "Total Cost"]);
   (py "cost:currency", [py "Currency of Cost"]);
   (py "cost:amount", [py "Cost Amount"]);
   (py "cost:driver", [py "Cost Driver"]);
   (py "cost:type", [py "Cost Type"]);
   (py "identity:id", [py "Identity"; py "Identit" ++ [228%N] ++ py "t"; py "Identit" ++ [233%N]; py "Identidad"; py "Identidade"]);
   (py "lifecycle:model", [py "Lifecycle Model"; py "Lebenszyklus-Model"; py "Mod" ++ [232%N] ++ py "le du Cycle Vital"; py "Modelo de Ciclo de Vida"; py "Modelo do Ciclo de Vida"]);
   (py "lifecycle:transition", [py "Lifecycle Transition"; py "Lebenszyklus-Transition"; py "Transition en Cycle Vital"; py "Transici" ++ [243%N] ++ py "n en Ciclo de Vida"; py "Transi" ++ [231%N] ++ [227%N] ++ py "o do Ciclo de Vida"]);
   (py "micro:level", [py "Micro level of this event"]);
   (py "micro:parentId", [py "Id of parent event of this event"]);
   (py "micro:length", [py "Number of child events for this event"]);
   (py "org:resource", [py "Resource"; py "Akteur"; py "Agent"; py "Recurso"; py "Recurso"]);
   (py "org:role", [py "Role"; py "Rolle"; py "R" ++ [244%N] ++ py "le"; py "Papel"; py "Papel"]);
   (py "org:group", [py "Group"; py "Gruppe"; py "Groupe"; py "Grupo"; py "Grupo"]);
   (py "semantic:modelReference", [py "Ontology Model Reference"; py "Ontologie-Modellreferenz"; py "R" ++ [233%N] ++ py "f" ++ [233%N] ++ py "rence au Mod" ++ [232%N] ++ py "le Ontologique"; py "Referencia de Modelo Ontol" ++ [243%N] ++ py "gico"; py "Refer" ++ [234%N] ++ py "ncia de Modelo Ontol" ++ [243%N] ++ py "gico"]);
   (py "time:timestamp", [py "Timestamp"; py "Zeitstempel"; py "Horodateur"; py "Timestamp"; py "Timestamp"])].
Definition standard_name (m k : pystr) : option pystr :=
  match sget k name_rows with
  | Some row => sget m (combine languages row)
  | None => None
  end.
