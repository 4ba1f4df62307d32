(** The texts of a log that a file has to hold. *)
From Coq Require Import String NArith ZArith List Bool.
From Verif Require Import Base.PyBase Base.PyDate Base.PyVal Model.Attr Model.Log Spec.XmlNorm.
Import ListNotations.

Section WithFloatIO.
Context `{FIO : FloatIO}.

(** Keys, texts and printed floats; everything else is printed in ASCII. *)
Definition value_texts (v : pyval) : list pystr :=
  match v with PStr s => [s] | PFloat f => [float_repr f] | _ => [] end.
Fixpoint attr_texts (a : attr) : list pystr :=
  match a with
  | mk_attr c k _ v coll meta =>
      k :: (if is_collection c then flat_map attr_texts coll
            else value_texts v ++ flat_map (fun kv => attr_texts (snd kv)) meta)
  end.
Definition map_texts (m : sdict attr) : list pystr := flat_map (fun kv => attr_texts (snd kv)) m.
Definition event_texts (e : event) : list pystr := map_texts (ev_attrs e).
Definition trace_texts (t : trace) : list pystr := map_texts (tr_attrs t) ++ flat_map event_texts (tr_events t).
Definition log_texts (l : xlog) : list pystr :=
  flat_map (fun x => [x_name x; x_prefix x; x_uri x]) (lg_exts l)
  ++ flat_map attr_texts (lg_gtrace l) ++ flat_map attr_texts (lg_gevent l)
  ++ flat_map (fun c => cl_name c :: cl_keys c) (lg_classifiers l)
  ++ map_texts (lg_attrs l) ++ flat_map trace_texts (lg_traces l).

(** All of them of characters that XML allows; none of them with a line break or a tab. *)
Definition legal_log (l : xlog) : Prop := Forall (fun s => legal_text s = true) (log_texts l).
Definition smooth_log (l : xlog) : Prop := Forall (fun s => calm s = true) (log_texts l).
End WithFloatIO.

(** The log with each line break (CR LF, CR or LF) and each tab in a key or text a blank. *)
Definition blanked_value (v : pyval) : pyval := match v with PStr s => PStr (normal_value s) | _ => v end.
Fixpoint blanked_attr (a : attr) : attr :=
  match a with
  | mk_attr c k x v coll meta =>
      mk_attr c (normal_value k) x (blanked_value v) (map blanked_attr coll)
              (map (fun kv => (normal_value (fst kv), blanked_attr (snd kv))) meta)
  end.
Definition blanked_map (m : sdict attr) : sdict attr :=
  map (fun kv => (normal_value (fst kv), blanked_attr (snd kv))) m.
Definition blanked_event (e : event) : event := mk_event (ev_id e) (blanked_map (ev_attrs e)).
Definition blanked_trace (t : trace) : trace :=
  mk_trace (blanked_map (tr_attrs t)) (map blanked_event (tr_events t)).
Definition blanked_ext (x : xext) : xext :=
  mk_xext (normal_value (x_name x)) (normal_value (x_prefix x)) (normal_value (x_uri x)).
Definition blanked (l : xlog) : xlog :=
  mk_log (blanked_map (lg_attrs l)) (map blanked_trace (lg_traces l)) (map blanked_ext (lg_exts l))
         (lg_classifiers l) (map blanked_attr (lg_gtrace l)) (map blanked_attr (lg_gevent l)) (lg_features l).
(** The names and keys of the classifiers have no line breaks and tabs. *)
Definition smooth_classifiers (l : xlog) : Prop :=
  Forall (fun c => Forall (fun s => calm s = true) (cl_name c :: cl_keys c)) (lg_classifiers l).
