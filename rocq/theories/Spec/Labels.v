(** Extensions as labels of what is read. *)
From Coq Require Import String NArith ZArith List Bool.
From Verif Require Import Base.PyBase Base.PyVal Base.Xml Model.Attr Model.Log Model.Registry Model.XesRead.
Import ListNotations.

(** The same attributes with other extensions, given by their keys. *)
Fixpoint relabel (f : pystr -> option xext) (a : attr) : attr :=
  match a with
  | mk_attr c k _ v coll meta =>
      mk_attr c k (f k) v (map (relabel f) coll) (map (fun p => (fst p, relabel f (snd p))) meta)
  end.
Definition relabel_map (f : pystr -> option xext) (m : sdict attr) : sdict attr :=
  map (fun p => (fst p, relabel f (snd p))) m.
Definition relabel_event (f : pystr -> option xext) (e : event) : event := mk_event (ev_id e) (relabel_map f (ev_attrs e)).
Definition relabel_trace (f : pystr -> option xext) (t : trace) : trace :=
  mk_trace (relabel_map f (tr_attrs t)) (map (relabel_event f) (tr_events t)).
Definition relabel_log (f : pystr -> option xext) (xs : list xext) (l : xlog) : xlog :=
  mk_log (relabel_map f (lg_attrs l)) (map (relabel_trace f) (lg_traces l)) xs (lg_classifiers l)
         (map (relabel f) (lg_gtrace l)) (map (relabel f) (lg_gevent l)) (lg_features l).

(** The tag of a start event, in lower case. *)
Definition opens (tag : pystr) (e : sax) : bool :=
  match e with SStart t _ => str_eqb (lower t) tag | _ => false end.

(** The extension an [extension] element stands for: by its prefix if it has one, otherwise by
    its URI. *)
Definition meant (mgr : manager xext) (urlparse : pystr -> option pystr) (e : sax) : option xext :=
  match e with
  | SStart _ atts =>
      match sget (py "prefix") atts, sget (py "uri") atts with
      | Some p, _ => mgr_by_prefix x_prefix mgr p
      | None, Some u => match urlparse u with Some v => mgr_by_uri mgr v | None => None end
      | None, None => None
      end
  | _ => None
  end.
Definition found (mgr : manager xext) (urlparse : pystr -> option pystr) (es : list sax) : list xext :=
  flat_map (fun e => match meant mgr urlparse e with Some x => [x] | None => [] end) (filter (opens (py "extension")) es).

(** Every [extension] element has a URI and comes after the start of a log. *)
Definition has_uri (e : sax) : Prop := exists t atts u, e = SStart t atts /\ sget (py "uri") atts = Some u.
Definition declared_well (es : list sax) : Prop :=
  forall a e b, es = a ++ e :: b -> opens (py "extension") e = true ->
  has_uri e /\ existsb (opens (py "log")) a = true.

(** The number of logs that are opened. *)
Definition logs (es : list sax) : nat := List.length (filter (opens (py "log")) es).
