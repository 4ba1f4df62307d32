(** What a random log is. *)
From Coq Require Import String NArith ZArith List Bool SpecFloat.
From Verif Require Import Base.PyBase Base.PyDate Base.PyVal Model.Attr Model.Log Spec.People.
Import ListNotations.

(** What [random] chooses in the script: ten traces of three to seven events of four options. *)
Definition random_options : list pystr :=
  map py ["string"; "date"; "int"; "float"; "boolean"; "id"; "list"; "container"]%string.
Definition choices_ok (choices : list (list (list pystr))) : Prop :=
  Forall (Forall (Forall (fun o => In o random_options))) choices.
Definition script_choices (choices : list (list (list pystr))) : Prop :=
  choices_ok choices /\ List.length choices = 10
  /\ Forall (fun t => 3 <= List.length t <= 7 /\ Forall (fun e => List.length e = 4) t) choices.

(** The attribute of an option; [zero] is the local time of the epoch. *)
Definition plain_attr (c : acls) (k : string) (v : pyval) (a : attr) : Prop := a = mk_attr c (py k) None v [] [].
Definition made_for (zero : datetime) (o : pystr) (a : attr) : Prop :=
  (o = py "string" /\ plain_attr CLiteral "string" (PStr (py "UNKNOWN")) a)
  \/ (o = py "date" /\ plain_attr CTimestamp "date" (PDate zero) a)
  \/ (o = py "int" /\ plain_attr CDiscrete "int" (PInt 0) a)
  \/ (o = py "float" /\ plain_attr CContinuous "float" (PFloat (S754_zero false)) a)
  \/ (o = py "boolean" /\ plain_attr CBoolean "boolean" (PBool true) a)
  \/ (o = py "id" /\ exists u, plain_attr CID "id" (PXid u) a)
  \/ (o = py "list" /\ plain_attr CList "list" PNone a)
  \/ (o = py "container" /\ plain_attr CContainer "container" PNone a).

(** An event of the options: each option once, in the order of the first choices. *)
Definition event_of (zero : datetime) (opts : list pystr) (e : event) : Prop :=
  map fst (ev_attrs e) = distinct_texts opts /\ Forall (fun kv => made_for zero (fst kv) (snd kv)) (ev_attrs e).
Definition trace_of (zero : datetime) (choices : list (list pystr)) (t : trace) : Prop :=
  tr_attrs t = [] /\ Forall2 (event_of zero) choices (tr_events t).

(** The ids in a log: those of the events and the values of their attributes. *)
Definition id_values (m : sdict attr) : list N :=
  flat_map (fun kv => match a_val (snd kv) with PXid u => [u] | _ => [] end) m.
Definition ids_in (e : event) : list N := ev_id e :: id_values (ev_attrs e).
