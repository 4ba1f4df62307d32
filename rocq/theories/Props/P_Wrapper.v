(** Property C75: wrappers of events. *)
From Coq Require Import String Arith NArith ZArith List Bool.
From Verif Require Import Base.PyBase Base.PyVal Model.Attr Model.StdExt Model.Wrapper Spec.Setters Spec.Wrapper Proofs.WrapperFacts Proofs.WrapperReads Props.P_Ext.
Import ListNotations.

(** After any history of new events, wrappers, calls of setters on wrappers and on events,
    replaced maps and clones, a wrapper shows what the event shows for which it stands. *)
Theorem C75_names : forall (C : Clock) draw ops,
  (forall k, wrapper_map (w_run draw ops) k = s_map (s_run ops) k)
  /\ (forall e, event_map (w_run draw ops) e = nth_error (s_events (s_run ops)) e)
  /\ map snd (w_wraps (w_run draw ops)) = s_names (s_run ops).
Proof. exact @wrappers_refine. Qed.
Print Assumptions C75_names.

(** A setter that succeeds is seen through the wrappers of the same event and no others. *)
Theorem C75_setter : forall (C : Clock) draw ops j c d d' k,
  wrapper_map (w_run draw ops) j = Some d -> wrapper_set c d = Ok d' ->
  wrapper_map (w_step draw (w_run draw ops) (OCall j c)) k =
  if match nth_error (s_names (s_run ops)) j, nth_error (s_names (s_run ops)) k with
     | Some a, Some b => Nat.eqb a b | _, _ => false end
  then Some d' else wrapper_map (w_run draw ops) k.
Proof. exact @setter_visible. Qed.
Print Assumptions C75_setter.

(** What the getters of a wrapper give after a call of a setter on it, and for an event without
    attributes. *)
Theorem C75_reads : forall (C : Clock) draw ops j d, wrapper_map (w_run draw ops) j = Some d ->
  (forall c g v, reads c g v -> exists d', wrapper_map (w_run draw (ops ++ [OCall j c])) j = Some d' /\ wrapper_get g d' = Ok v)
  /\ (forall refs, refs <> [] -> exists d', wrapper_map (w_run draw (ops ++ [OCall j (WRefs (map PStr refs))])) j = Some d'
        /\ wrapper_references d' = Ok (split (py "\s") (lower (ref_text refs))))
  /\ (d = [] -> forall g, wrapper_get g d = Ok (nothing_set g)).
Proof. exact @wrapper_reads. Qed.
Print Assumptions C75_reads.
Example C75_reads_example :
  let seen c g := option_map (wrapper_get g) (wrapper_map (@w_run january N.of_nat [ONew; OWrap 0; OCall 0 c]) 0) in
  seen (WRole (PStr (py "The Boss"))) GRole = Some (Ok (PStr (py "the boss")))
  /\ seen (WTransition (PStr (py " Start"))) GTransition = Some (Ok (PStr (py "Start")))
  /\ seen (WTransition (PStr (py " Start"))) GStandard = Some (Ok (PStr (py "start")))
  /\ seen (WInstance (PStr (py "i"))) GInstance = Some (Ok PNone) /\ seen (WName PNone) GTime = Some (Ok (PInt (-1))).
Proof. vm_compute. repeat split. Qed.

(** A wrapper has attributes if the event has, and its extensions are always the empty set (see C56). *)
Theorem C75_asked : forall (C : Clock) draw ops k d, s_map (s_run ops) k = Some d ->
  (wrapper_has (w_run draw ops) k = Some true <-> exists key a, sget key d = Some a)
  /\ wrapper_extensions (w_run draw ops) k = Some (Ok []).
Proof. exact @wrapper_asked. Qed.
Print Assumptions C75_asked.

Example C75_asked_example :
  let w := @w_run january N.of_nat [ONew; OWrap 0; ONew; OWrap 1; OCall 1 (WName (PStr (py "a")))] in
  wrapper_has w 0 = Some false /\ wrapper_has w 1 = Some true /\ wrapper_extensions w 1 = Some (Ok []).
Proof. vm_compute. repeat split. Qed.

(** A clone shows the same at first; from then on neither sees what is done to the other. *)
Theorem C75_clone : forall (C : Clock) draw ops k d, wrapper_map (w_run draw ops) k = Some d ->
  let j := List.length (w_wraps (w_run draw ops)) in
  let after more := wrapper_map (w_run draw (ops ++ OClone k :: more)) in
  after [] j = Some d /\ after [] k = Some d
  /\ (forall c, after [OCall j c] k = Some d /\ after [OCall k c] j = Some d)
  /\ (forall d', after [OReplace j d'] k = Some d /\ after [OReplace k d'] j = Some d).
Proof. exact @clone_apart. Qed.
Print Assumptions C75_clone.

(** A wrapper equals itself alone: two wrappers of one event differ, if uuid4 does not
    repeat itself. *)
Theorem C75_equal : forall (C : Clock) draw ops j k, (forall a b, draw a = draw b -> a = b) ->
  j < List.length (w_wraps (w_run draw ops)) -> wrapper_eq (w_run draw ops) j k = true <-> j = k.
Proof. exact @wrapper_ids. Qed.
Print Assumptions C75_equal.

(** The id of a wrapper is not that of an event. *)
Theorem C75_ids : forall (C : Clock) draw ops k e i m a b, (forall a b, draw a = draw b -> a = b) ->
  nth_error (w_wraps (w_run draw ops)) k = Some (a, b) -> nth_error (w_events (w_run draw ops)) e = Some (i, m) -> a <> i.
Proof. exact @wrapper_event_ids. Qed.
Print Assumptions C75_ids.

(** Two wrappers of one event, one of another, a clone, and a setter that raises. *)
Definition wrapped : list wop :=
  [ONew; ONew; OWrap 0; OWrap 0; OWrap 1; OCall 0 (WName (PStr (py "a"))); OClone 1; OCall 1 (WResource (PStr (py "Ann")));
   OCall 3 (WName (PStr (py "b"))); OCall 2 (WResource (PInt 3)); OReplace 2 []; OEvent 1 (WName (PStr (py "c")))].
Definition shown (k : nat) : option (list (pystr * pyval)) :=
  option_map (map (fun p => (fst p, a_val (snd p)))) (wrapper_map (@w_run january N.of_nat wrapped) k).
Example C75_example :
  shown 0 = Some [(py "concept:name", PStr (py "a")); (py "org:resource", PStr (py "ann"))]
  /\ shown 1 = shown 0
  /\ shown 2 = Some [(py "concept:name", PStr (py "c"))]
  /\ shown 3 = Some [(py "concept:name", PStr (py "b"))]
  /\ map fst (w_wraps (@w_run january N.of_nat wrapped)) = [2; 3; 4; 8]%N
  /\ wrapper_eq (@w_run january N.of_nat wrapped) 0 1 = false.
Proof. repeat split; vm_compute; reflexivity. Qed.
