(** Properties C73 and C74: equality of events, traces and logs, and the ids it rests on. *)
From Coq Require Import String NArith ZArith List Bool.
From Verif Require Import Base.PyBase Base.PyDate Base.PyVal Base.Xml Model.Attr Model.Log Model.Registry Model.XesWrite
  Model.XesRead Model.MxmlRead Model.Heap Model.Elements Spec.Typing Spec.Xes Spec.Survive Spec.Clone Spec.Elements Spec.Ids
  Proofs.ElementFacts Proofs.IdFacts Proofs.IdStored Props.P_Clone Props.P_Xes Props.P_Stats Props.P_Mxml.
Import ListNotations.

(** ** C73 *)

(** Events are equal if and only if they have the same id. *)
Theorem C73_events : forall s a b i d j d', event_view s a = Some (i, d) -> event_view s b = Some (j, d') ->
  elem_eq s a b = true <-> i = j.
Proof. exact (event_equal 2). Qed.
Print Assumptions C73_events.

(** Traces are equal if and only if they have the same ids in the same order; their own
    attributes and those of their events do not matter. *)
Theorem C73_traces : forall s a b v w, trace_view s a = Some v -> trace_view s b = Some w ->
  elem_eq s a b = true <-> trace_ids v = trace_ids w.
Proof. exact (trace_equal 1). Qed.
Print Assumptions C73_traces.

(** Logs are equal if and only if they have the same ids trace by trace; attributes,
    classifiers, globals, features and extensions do not matter. *)
Theorem C73_logs : forall s a b v w, log_view s a = Some v -> log_view s b = Some w ->
  elem_eq s a b = true <-> ids_by_trace v = ids_by_trace w.
Proof. exact log_equal. Qed.
Print Assumptions C73_logs.

(** Across kinds: an event equals no trace and no log; a log equals a trace if and only if
    both are empty. *)
Theorem C73_kinds : forall s e l t i d v w,
  event_view s e = Some (i, d) -> trace_view s t = Some w -> log_view s l = Some v ->
  elem_eq s e t = false /\ elem_eq s t e = false /\ elem_eq s e l = false /\ elem_eq s l e = false
  /\ (elem_eq s l t = true <-> v_traces v = [] /\ trace_ids w = [])
  /\ (elem_eq s t l = true <-> v_traces v = [] /\ trace_ids w = []).
Proof. exact mixed_equal. Qed.
Print Assumptions C73_kinds.

(** [log.index(trace)] is the place of the first trace with the same ids, or ValueError. *)
Theorem C73_index : forall s l t v w i, log_view s l = Some v -> trace_view s t = Some w ->
  elem_index s l t = Ok i <-> first_place (fun u => trace_ids u = trace_ids w) (v_traces v) i.
Proof. exact log_index. Qed.
Print Assumptions C73_index.
Theorem C73_index_fails : forall s l t v w, log_view s l = Some v -> trace_view s t = Some w ->
  elem_index s l t = Raise ValueError <-> forall u, In u (v_traces v) -> trace_ids u <> trace_ids w.
Proof. exact log_index_none. Qed.
Print Assumptions C73_index_fails.

(** So when no id occurs twice in the log, a trace with an event is found in its own place. *)
Theorem C73_own_place : forall s l v i w t, log_view s l = Some v -> trace_view s t = Some w ->
  NoDup (log_ids v) -> nth_error (v_traces v) i = Some w -> trace_ids w <> [] -> elem_index s l t = Ok i.
Proof. exact log_index_own. Qed.
Print Assumptions C73_own_place.

(** [log.remove(trace)] takes out the first trace with the same ids and changes nothing else. *)
Theorem C73_remove : forall s l t v w s', log_view s l = Some v -> trace_view s t = Some w ->
  elem_remove s l t = Ok s' ->
  exists v1 u v2, v_traces v = v1 ++ u :: v2 /\ trace_ids u = trace_ids w
    /\ Forall (fun x => trace_ids x <> trace_ids w) v1
    /\ log_view s' l = Some (mk_lv (v_attrs v) (v1 ++ v2) (v_clfs v) (v_gtrace v) (v_gevent v) (v_feat v) (v_exts v))
    /\ (forall a, a <> l -> read s' a = read s a).
Proof. exact log_remove. Qed.
Print Assumptions C73_remove.

(** [trace.remove(event)] takes out the first event with the id of [event] and changes
    nothing else. *)
Theorem C73_remove_event : forall s t e d es v s', trace_view s t = Some (d, es) -> event_view s e = Some v ->
  elem_remove s t e = Ok s' ->
  exists es1 u es2, es = es1 ++ u :: es2 /\ fst u = fst v
    /\ Forall (fun x => fst x <> fst v) es1
    /\ trace_view s' t = Some (d, es1 ++ es2)
    /\ (forall a, a <> t -> read s' a = read s a).
Proof. exact trace_remove. Qed.
Print Assumptions C73_remove_event.

(** It raises ValueError if there is none. *)
Theorem C73_remove_found : forall s l t v w, log_view s l = Some v -> trace_view s t = Some w ->
  match elem_remove s l t with
  | Ok _ => exists u, In u (v_traces v) /\ trace_ids u = trace_ids w
  | Raise e => e = ValueError /\ forall u, In u (v_traces v) -> trace_ids u <> trace_ids w
  end.
Proof. exact log_remove_found. Qed.
Print Assumptions C73_remove_found.

(** [trace.index(event)] is the first place of the id of [event]; like [trace.remove(event)]
    it raises ValueError if there is none. *)
Theorem C73_event_found : forall s t e d es v, trace_view s t = Some (d, es) -> event_view s e = Some v ->
  match elem_index s t e, elem_remove s t e with
  | Ok i, Ok _ => first_place (fun u => fst u = fst v) es i
  | Raise x, Raise y => x = ValueError /\ y = ValueError /\ forall u, In u es -> fst u <> fst v
  | _, _ => False
  end.
Proof. exact trace_remove_found. Qed.
Print Assumptions C73_event_found.

(** [log.count(trace)] counts the traces with the ids of [trace]. *)
Theorem C73_log_count : forall s l t v w, log_view s l = Some v -> trace_view s t = Some w ->
  elem_count s l t = Ok (count_occ (list_eq_dec N.eq_dec) (ids_by_trace v) (trace_ids w)).
Proof. exact log_count. Qed.
Print Assumptions C73_log_count.

(** [trace.count(event)] counts the events with the id of [event]. *)
Theorem C73_count : forall s t e d es i d', trace_view s t = Some (d, es) -> event_view s e = Some (i, d') ->
  elem_count s t e = Ok (count_occ N.eq_dec (map fst es) i).
Proof. exact trace_count. Qed.
Print Assumptions C73_count.

(** [event in trace] asks for the id of [event], [trace in log] for the ids of [trace]. *)
Theorem C73_contains : forall s t e d es i d', trace_view s t = Some (d, es) -> event_view s e = Some (i, d') ->
  exists b, elem_contains s t e = Ok b /\ (b = true <-> In i (map fst es)).
Proof. exact trace_contains. Qed.
Print Assumptions C73_contains.
Theorem C73_log_contains : forall s l t v w, log_view s l = Some v -> trace_view s t = Some w ->
  exists b, elem_contains s l t = Ok b /\ (b = true <-> In (trace_ids w) (ids_by_trace v)).
Proof. exact log_contains. Qed.
Print Assumptions C73_log_contains.

(** Copies, when the ids that will be drawn are new: a copy of an event is never equal to
    the event, a copy of a trace or log only if there are no events in it. *)
Theorem C73_copied_event : forall draw s e i d e' s', heap_wf s -> event_view s e = Some (i, d) ->
  fresh_from draw s [i] -> event_clone draw e s = Ok (e', s') -> elem_eq s' e e' = false.
Proof. exact event_clone_equal. Qed.
Print Assumptions C73_copied_event.
Theorem C73_copied_trace : forall draw s t v t' s', heap_wf s -> trace_view s t = Some v ->
  fresh_from draw s (trace_ids v) -> trace_clone draw t s = Ok (t', s') ->
  elem_eq s' t t' = true <-> trace_ids v = [].
Proof. exact trace_clone_equal. Qed.
Print Assumptions C73_copied_trace.
Theorem C73_copied_log : forall draw s l v l' s', heap_wf s -> log_view s l = Some v ->
  fresh_from draw s (log_ids v) -> log_clone draw l s = Ok (l', s') ->
  elem_eq s' l l' = true <-> log_ids v = [].
Proof. exact log_clone_equal. Qed.
Print Assumptions C73_copied_log.

(** A log with two traces without events: the second one is found in the place of the first
    one, and removing it removes the first one. *)
Definition empties : st := mk_st
  [ KMap []; KAttr CLiteral (py "concept:name") None (PStr (py "b")) [] 0; KMap [(py "concept:name", 1)];   (* 0-2 *)
    KEvent 7%N 2; KEvent 8%N 0; KEvent 7%N 0;                                                                (* 3-5 *)
    KTrace 0 []; KTrace 2 []; KTrace 0 [3; 4]; KTrace 2 [5; 4];                                              (* 6-9 *)
    KClfs []; KAttrs []; KFeat []; KExts [];                                                                 (* 10-13 *)
    KLog (mk_lc 0 [6; 7; 8; 8] 10 11 11 None 12 13) ] 0.                                                     (* 14 *)
Theorem C73_empty_refuted : exists s l v i w t,
  log_view s l = Some v /\ trace_view s t = Some w /\ nth_error (v_traces v) i = Some w
  /\ (forall j, nth_error (v_traces v) j = Some w -> j = i) /\ elem_index s l t <> Ok i
  /\ exists s', elem_remove s l t = Ok s' /\ exists v', log_view s' l = Some v' /\ In w (v_traces v').
Proof.
  exists empties, 14, (match log_view empties 14 with Some v => v | None => mk_lv [] [] [] [] [] [] [] end),
    1, ([(py "concept:name", 1)], []), 7.
  split; [reflexivity|]. split; [reflexivity|]. split; [reflexivity|]. split.
  - intros j. vm_compute. destruct j as [|[|[|[|[|j]]]]]; try reflexivity; discriminate.
  - split; [discriminate|]. eexists. split; [reflexivity|]. eexists. split; [reflexivity|]. now left.
Qed.
Print Assumptions C73_empty_refuted.

Example C73_example :
  elem_eq empties 3 5 = true /\ elem_eq empties 3 4 = false /\ elem_eq empties 8 9 = true /\ elem_eq empties 6 8 = false
  /\ elem_index empties 14 9 = Ok 2 /\ elem_count empties 8 5 = Ok 1 /\ elem_contains empties 14 5 = Ok false
  /\ fresh_from (fun k => N.of_nat (100 + k)) demo_heap [7; 7; 7; 7]%N
  /\ (let! p := log_clone (fun k => N.of_nat (100 + k)) 12 demo_heap in Ok (elem_eq (snd p) 12 (fst p))) = Ok false.
Proof.
  repeat (split; [vm_compute; reflexivity|]). split; [|vm_compute; reflexivity].
  intros k _ I. assert (N.of_nat (100 + k) = 7%N) as E by (destruct I as [H|[H|[H|[H|[]]]]]; now symmetry).
  apply (f_equal N.to_nat) in E. rewrite Nnat.Nat2N.id in E. discriminate.
Qed.

Example C73_remove_example :
  match trace_view empties 8, elem_remove empties 8 5 with
  | Some (d, es), Ok s' => List.length es = 2 /\ trace_view s' 8 = Some (d, tl es)
  | _, _ => False
  end.
Proof. vm_compute. split; reflexivity. Qed.

(** ** C74 *)

(** Whatever events a SAX parser reports (a document need not be a log, nor well nested):
    every event in a log that was read has an id drawn while reading, and no two events have
    the same draw. *)
Theorem C74_xes : forall (FIO : FloatIO) mgr urlparse draw es s r l,
  xes_run mgr urlparse draw es ps_init = Ok s -> log_in (p_heap s) r l ->
  own_draws draw (p_drawn s) (event_ids l).
Proof. exact @xes_ids. Qed.
Print Assumptions C74_xes.

(** The same for all logs of an MXML file together. *)
Theorem C74_mxml : forall draw es s, mx_run draw es ms_init = Ok s ->
  own_draws draw (m_drawn s) (map ev_id (flat_map read_events (m_logs s))).
Proof. exact mxml_ids. Qed.
Print Assumptions C74_mxml.

(** If uuid4 never repeats itself the ids are pairwise different. *)
Theorem C74_different : forall draw n ids, (forall i j, draw i = draw j -> i = j) -> own_draws draw n ids -> NoDup ids.
Proof. exact own_draws_nodup. Qed.
Print Assumptions C74_different.

(** A log read back from the file it was written to is, by C73, equal to the log that was
    written if and only if there is no event in it (with ids drawn that are new). *)
Theorem C74_stored : forall (FIO : FloatIO) mgr urlparse draw l l',
  readable_log l -> keyed_log l -> calm_log l -> stored mgr urlparse draw l l' ->
  (forall k, ~ In (draw k) (event_ids l)) ->
  ids_in_traces l = ids_in_traces l' <-> log_events l = [].
Proof. exact @stored_unequal. Qed.
Print Assumptions C74_stored.

(** An [event] element inside another one, and a second end tag of a trace. *)
Definition odd_doc : list sax :=
  [SStart (py "log") []; SStart (py "trace") []; SStart (py "event") []; SStart (py "event") []; SEnd (py "event");
   SStart (py "event") []; SEnd (py "event"); SEnd (py "trace"); SEnd (py "log")].
Example C74_example :
  match @xes_run no_floats sample_mgr (fun u => Some u) N.of_nat odd_doc ps_init with
  | Ok s => p_drawn s = 3 /\ log_in (p_heap s) 0 (mk_log [] [mk_trace [] [mk_event 1 []; mk_event 2 []]] [] [] [] [] [])
  | Raise _ => False
  end
  /\ map ev_id (flat_map read_events (m_logs sample_run)) = [0; 1; 2]%N.
Proof.
  split; [|vm_compute; reflexivity].
  match goal with |- match ?x with _ => _ end => let y := eval vm_compute in x in change x with y end.
  cbn [p_drawn p_heap]. split; [reflexivity|].
  exists [], [Some 1], [], []. split; [reflexivity|]. split; [constructor|]. split; [|split; constructor].
  constructor; [|constructor]. exists 1. split; [reflexivity|]. exists [], [Some 3; Some 4].
  split; [reflexivity|]. split; [constructor|].
  constructor; [|constructor; [|constructor]]; eexists; (split; [reflexivity|]); exists []; (split; [reflexivity|constructor]).
Qed.
