(** The log transformations of /repo/example: filter_compress_log.py, Csv_to_xes_file.py,
    Anonymize_a_log.py and Cluster_a_log.py.  They are scripts; each is modelled from the
    parsed log (or the file's text) to the log it writes. *)
From Coq Require Import String NArith ZArith List Bool.
From Verif Require Import Base.PyBase Base.PyDate Base.PyVal Model.Attr Model.Log
  Model.Classify Model.Alpha.
Import ListNotations.

Section WithFloatIO.
Context `{FIO : FloatIO}.

(** ** filter_compress_log.py *)

(** The loop over [zip(trace_a, trace_b)]: filter_compress_log.py:17-21. *)
Fixpoint same_events (c : classifier) (a b : list event) : res bool :=
  match a, b with
  | x :: a', y :: b' => let! s := same_event_class c x y in
                        if s then same_events c a' b' else Ok false
  | _, _ => Ok true
  end.

(** same_trace: filter_compress_log.py:13-21. *)
Definition same_trace (c : classifier) (a b : trace) : res bool :=
  if negb (Nat.eqb (List.length (tr_events a)) (List.length (tr_events b))) then Ok false
  else same_events c (tr_events a) (tr_events b).

(** The while loop: filter_compress_log.py:37-44. *)
Fixpoint have_trace (c : classifier) (a : trace) (new : list trace) : res bool :=
  match new with
  | [] => Ok false
  | b :: t => let! s := same_trace c a b in if s then Ok true else have_trace c a t
  end.

(** The traces of the new log: filter_compress_log.py:34-47. *)
Definition filter_traces (c : classifier) (ts : list trace) : res (list trace) :=
  fold_res (fun new a => let! h := have_trace c a new in
                         Ok (if h then new else new ++ [a])) ts [].

(** filter_compress_log.py:28-47: a clone of the log, emptied and filled again.
    Simplification: the clone is the same tree (XLog.clone is modelled on a heap in
    Model/Heap.v; its events are not used after [clear]). *)
Definition filter_log (c : classifier) (l : xlog) : res xlog :=
  let! ts := filter_traces c (lg_traces l) in
  Ok (mk_log (lg_attrs l) ts (lg_exts l) (lg_classifiers l) (lg_gtrace l) (lg_gevent l)
             (lg_features l)).

(** ** Anonymize_a_log.py *)

(** [key in ["Resource", "org:resource"]] *)
Definition is_resource (a : attr) : bool :=
  existsb (str_eqb (a_key a)) [py "Resource"; py "org:resource"].

(** [set_value("UNKNOWN")]: e.g. XAttributeLiteral.py:28-34; collections have no
    [set_value]. *)
Definition hide_value (a : attr) : res attr :=
  match a with
  | mk_attr c k x _ coll meta =>
      if is_collection c then Raise AttributeError
      else Ok (mk_attr c k x (PStr (py "UNKNOWN")) coll meta)
  end.

(** The loop body: Anonymize_a_log.py:15-17, 20-22, 27-29, 33-35. *)
Definition hide (a : attr) : res attr := if is_resource a then hide_value a else Ok a.

Definition hide_map (m : sdict attr) : res (sdict attr) :=
  map_res (fun '(k, a) => let! b := hide a in Ok (k, b)) m.

Definition hide_event (e : event) : res event :=
  let! m := hide_map (ev_attrs e) in Ok (mk_event (ev_id e) m).

Definition hide_trace (t : trace) : res trace :=
  let! m := hide_map (tr_attrs t) in
  let! es := map_res hide_event (tr_events t) in
  Ok (mk_trace m es).

(** Anonymize_a_log.py:14-35.  Simplification: no attribute object occurs at two places
    of the log (as in every parsed log). *)
Definition anonymize (l : xlog) : res xlog :=
  let! gt := map_res hide (lg_gtrace l) in
  let! ge := map_res hide (lg_gevent l) in
  let! ts := map_res hide_trace (lg_traces l) in
  Ok (mk_log (lg_attrs l) ts (lg_exts l) (lg_classifiers l) gt ge (lg_features l)).

(** ** Csv_to_xes_file.py *)

(** The lines of a text file with their line ends, as [readline] gives them.
    Simplification: line ends are a single newline character. *)
Fixpoint lines_aux (acc s : pystr) : list pystr :=
  match s with
  | [] => match acc with [] => [] | _ => [rev acc] end
  | c :: t => if (c =? 10)%N then rev (c :: acc) :: lines_aux [] t else lines_aux (c :: acc) t
  end.
Definition file_lines (s : pystr) : list pystr := lines_aux [] s.

(** The conversion of a column title: Csv_to_xes_file.py:36-42. *)
Definition column_type (s : pystr) : pystr :=
  let s' := if contains (py "yyyy") s
            then replace (py "mm") (py "%M") (replace (py "HH") (py "%H")
                   (replace (py "yyyy") (py "%Y") (replace (py "MM") (py "%m")
                      (replace (py "dd") (py "%d") s))))
            else s in
  strip_by (N.eqb 10) s'.

Section Csv.
(** [datetime.strptime(text, format)]; [None] stands for ValueError. *)
Variable strp : pystr -> pystr -> option datetime.
(** The identifiers drawn for new events. *)
Variable draw : nat -> N.

(** One column of one line: Csv_to_xes_file.py:20-28. *)
Definition convert_field (type text : pystr) : res attr :=
  if str_eqb type (py "Activity") || str_eqb type (py "Resource")
  then Ok (mk_attr CLiteral type None (PStr text) [] [])
  else if contains (py "%Y") type
  then match strp text type with
       | Some d => Ok (mk_attr CTimestamp (py "time") None (PDate d) [] [])
       | None => Raise ValueError
       end
  else match py_int 10 text with
       | Some z => Ok (mk_attr CDiscrete type None (PInt z) [] [])
       | None => Raise ValueError
       end.

(** The loop: Csv_to_xes_file.py:19-28, on the columns after the first two. *)
Fixpoint convert_fields (types : list pystr) (texts : list pystr) (m : sdict attr) :
  res (sdict attr) :=
  match texts with
  | [] => Ok m
  | s :: ss => match types with
               | [] => Raise KeyError
               | t :: ts => let! a := convert_field t s in
                            convert_fields ts ss (sset (a_key a) a m)
               end
  end.

(** convert_line_in_event: Csv_to_xes_file.py:11-29. *)
Definition convert_line (types : list pystr) (n : nat) (line : list pystr) : res event :=
  let! m := convert_fields (skipn 2 types) (skipn 2 line) [] in
  Ok (mk_event (draw n) m).

(** The rows after the first: Csv_to_xes_file.py:51-59.  The state is the number of events
    made, the traces of the log and the events of the current trace. *)
Definition csv_step (types : list pystr) (actual : pystr)
  (st : nat * list (list event) * list event) (line : pystr) :
  res (nat * list (list event) * list event) :=
  let '(n, done, cur) := st in
  let cells := split (py ";") line in
  let! e := convert_line types n cells in
  if str_eqb (hd [] cells) actual then Ok (S n, done, cur ++ [e])
  else Ok (S n, done ++ [cur], [e]).

(** The traces of the written log: Csv_to_xes_file.py:32-59.  At the end of the file
    [readline] gives the empty text. *)
Definition csv_traces (text : pystr) : res (list (list event)) :=
  let lines := file_lines text in
  let types := map column_type (split (py ";") (hd [] lines)) in
  let first := split (py ";") (hd [] (tl lines)) in
  let! e := convert_line types 0 first in
  let! st := fold_res (csv_step types (hd [] first)) (tl (tl lines)) (1, [], [e]) in
  Ok (snd (fst st)).

Definition csv_log (text : pystr) : res xlog :=
  let! ts := csv_traces text in
  Ok (mk_log [] (map (fun es => mk_trace [] es) ts) [] [] [] [] []).
End Csv.

(** ** Cluster_a_log.py *)

Section Cluster.
Context `{SO : SetOrder}.

(** [trace.count(event)] *)
Definition count_in (x : pystr) (l : list pystr) : nat :=
  List.length (filter (str_eqb x) l).

(** Cluster_a_log.py:16-31: the vectors of the traces. *)
Definition log_vectors (c : classifier) (l : xlog) : res (list (list nat)) :=
  let! ids := map_res (fun t => map_res (class_identity c) (tr_events t)) (lg_traces l) in
  let all := iter (set_of str_eqb (List.concat ids)) in
  Ok (map (fun t => map (fun e => count_in e t) all) ids).

(** The clustering of scikit-learn: the number of centres and the cluster of a vector,
    both depending on all vectors. *)
Variable centres : list (list nat) -> nat.
Variable predict : list (list nat) -> list nat -> nat.

(** A new log: Cluster_a_log.py:52-58.  The three assignments to [new_log.__classifiers]
    and the like are outside a class, so the names are not mangled and the lists of the log
    keep the empty ones of XLog.__init__. *)
Definition empty_cluster (l : xlog) : xlog :=
  mk_log (lg_attrs l) [] (lg_exts l) [] [] [] [].

Definition add_trace (t : trace) (l : xlog) : xlog :=
  mk_log (lg_attrs l) (lg_traces l ++ [t]) (lg_exts l) (lg_classifiers l) (lg_gtrace l)
         (lg_gevent l) (lg_features l).

(** Cluster_a_log.py:49-65.  The dictionary of new logs has the keys "0", "1", ... in
    this order and is kept as a list; a missing key raises KeyError. *)
Definition cluster_log (c : classifier) (l : xlog) : res (list xlog) :=
  let! vs := log_vectors c l in
  fold_res (fun logs '(v, t) =>
    let k := predict vs v in
    if Nat.ltb k (List.length logs) then Ok (update k (add_trace t) logs)
    else Raise KeyError)
    (combine vs (lg_traces l)) (repeat (empty_cluster l) (centres vs)).
End Cluster.

(** ** AlphaAlgorithm.py *)

(** The script: AlphaAlgorithm.py:206-221, for any classifier. *)
Definition mine_log `{SO : SetOrder} (c : classifier) (l : xlog) : res alpha :=
  let! log_list := map_res (fun t => map_res (class_identity c) (tr_events t)) (lg_traces l) in
  alpha_of log_list.
End WithFloatIO.
