(** Properties of the standard extensions (C52-C55, C60). *)
From Coq Require Import String NArith ZArith List Bool.
From Verif Require Import Base.Unicode Base.PyBase Base.PyDate Base.PyVal Model.Attr Model.StdExt Model.Nested
  Spec.Setters Spec.NestedSpec
  Proofs.BaseFacts Proofs.LowerFacts Proofs.SetterFacts Proofs.LifecycleFacts Proofs.NestedFacts.
Import ListNotations.

(** An element with a name, a resource with a nested cost amount, and a list. *)
Definition demo_meta : sdict attr :=
  [(py "cost:amount", mk_attr CContinuous (py "cost:amount") (Some ext_cost) (PInt 5) [] [])].
Definition demo_map : sdict attr :=
  [(py "concept:name", mk_attr CLiteral (py "concept:name") None (PStr (py "check")) [] []);
   (py "org:resource", mk_attr CLiteral (py "org:resource") None (PStr (py "Ana")) [] demo_meta)].

(** ** C52: setters and getters *)

(** After assigning an admissible value, the getter returns what is kept of it (the value, or
    for lifecycle model and transition the stripped text), the attribute is a new one of the
    right class, key and extension, and no other key is touched. *)
Theorem C52_assign_extract : forall sl v m, ~ odd_slot sl -> admissible sl v ->
  exists m', slot_assign sl v m = Ok m'
    /\ slot_extract sl m' = Ok (kept sl v)
    /\ sget (slot_key sl) m' = Some (mk_attr (slot_class sl) (slot_key sl) (Some (slot_ext sl)) (kept sl v) [] [])
    /\ only_at (slot_key sl) m m'.
Proof. exact assign_extract. Qed.
Print Assumptions C52_assign_extract.
Example C52_assign_extract_ex :
  ~ odd_slot STransition /\ admissible STransition (PStr (py " start "))
  /\ (let! m := assign_transition (PStr (py " start ")) demo_map in extract_transition m) = Ok (PStr (py "start"))
  /\ (let! m := assign_resource (PStr (py "Bo")) demo_map in extract_resource m) = Ok (PStr (py "Bo")).
Proof.
  split; [intros [|[|]]; discriminate|]. split; [|split; vm_compute; reflexivity].
  exists (py " start "). split; [reflexivity|]. exists 115%N. split; [cbn; tauto|reflexivity].
Qed.

(** The getters: without the attribute they give None (the level and the time stamp -1), with
    it they give its value, whatever that is; only lists and containers have none. *)
Theorem C52_getters : forall m,
  (forall sl, sget (slot_key sl) m = None -> slot_extract sl m = Ok (absent_value sl))
  /\ (forall sl a, sget (slot_key sl) m = Some a ->
       slot_extract sl m = if match a_cls a with CList | CContainer => true | _ => false end
                           then Raise AttributeError else Ok (a_val a))
  /\ extract_timestamp m = match sget (py "time:timestamp") m with
                           | Some a => slot_extract SName [(py "concept:name", a)] | None => Ok (PInt (-1)) end
  /\ extract_parent_id m = match sget (py "micro:parentId") m with
                           | Some a => slot_extract SName [(py "concept:name", a)] | None => Raise KeyError end.
Proof. exact getters_give. Qed.
Print Assumptions C52_getters.
Example C52_getters_ex :
  extract_timestamp demo_map = Ok (PInt (-1)) /\ extract_level demo_map = Ok (PInt (-1)) /\ extract_total demo_map = Ok PNone
  /\ extract_name demo_map = Ok (PStr (py "check"))
  /\ extract_role [(py "org:role", mk_attr CDiscrete (py "org:role") None (PInt 3) [] [])] = Ok (PInt 3).
Proof. vm_compute. repeat split. Qed.

(** None (except for level and length), blank text and numbers that are not positive are passed
    over without any effect; any other inadmissible value raises. *)
Theorem C52_passed_over : forall sl v m, passed_over sl v -> slot_assign sl v m = Ok m.
Proof. exact slot_pass. Qed.
Print Assumptions C52_passed_over.
Theorem C52_rejected : forall sl v m, ~ admissible sl v -> ~ passed_over sl v ->
  slot_assign sl v m = Raise (slot_error sl v).
Proof. exact slot_err. Qed.
Print Assumptions C52_rejected.
Example C52_passed_over_ex :
  passed_over SName (PStr (py "  ")) /\ passed_over STotal (PInt (-3))
  /\ ~ admissible SLevel PNone /\ ~ passed_over SLevel PNone
  /\ assign_level PNone demo_map = Raise TypeError /\ assign_name (PInt 3) demo_map = Raise AttributeError.
Proof.
  split; [right; exists (py "  "); split; [reflexivity|repeat constructor]|].
  split; [right; split; [eexists; reflexivity|intros (n & [= <-] & [=])]|].
  split; [intros (n & [=] & _)|]. split; [intros [(n & [=]) _]|]. split; reflexivity.
Qed.

(** Any history of assignments, also with the odd setters: under each key is what the last
    effective call to it wrote, or the initial attribute. *)
Theorem C52_history : forall calls m m', run_assigns calls m = Ok m' -> forall k,
  (exists a, last_write calls k a /\ sget k m' = Some a) \/ (no_write calls k /\ sget k m' = sget k m).
Proof. exact history. Qed.
Print Assumptions C52_history.
Theorem C52_history_value : forall calls m m' sl v before after,
  run_assigns calls m = Ok m' -> ~ odd_slot sl -> calls = before ++ (sl, v) :: after -> admissible sl v ->
  (forall sl2 v2, In (sl2, v2) after -> written_key sl2 = slot_key sl -> passed_over sl2 v2) ->
  slot_extract sl m' = Ok (kept sl v).
Proof. exact last_write_extract. Qed.
Print Assumptions C52_history_value.
Example C52_history_ex :
  (let! m := run_assigns [(SName, PStr (py "a")); (SRole, PStr (py "b")); (SName, PNone); (STotal, PInt 2)] demo_map in
   let! n := extract_name m in let! t := extract_total m in Ok (n, t)) = Ok (PStr (py "a"), PInt 2)
  /\ (let! m := run_assigns [(SName, PStr (py "a")); (SCurrency, PStr (py "EUR"))] demo_map in extract_name m)
     = Ok (PStr (py "EUR")).
Proof. split; vm_compute; reflexivity. Qed.

(** The odd setters: an instance or a currency replaces the concept name and cannot be read
    back by its own getter; a cost type is stored as the built-in [type]. *)
Theorem C52_instance : forall v m, nonblank_text v -> exists m', assign_instance v m = Ok m'
  /\ extract_name m' = Ok v /\ extract_instance m' = extract_instance m /\ only_at (py "concept:name") m m'.
Proof.
  intros v m A. exists (sset (py "concept:name") (written SInstance v) m).
  split; [exact (slot_adm SInstance v m A)|]. split; [|split; [|apply sset_only_at]].
  - unfold extract_name. rewrite (fetch_some _ _ _ _ (sget_sset_same _ _ _)). reflexivity.
  - unfold extract_instance, fetch. rewrite sget_sset_other by discriminate. reflexivity.
Qed.
Print Assumptions C52_instance.
Theorem C52_instance_refuted : exists v m m', nonblank_text v /\ assign_instance v m = Ok m'
  /\ extract_instance m' <> Ok v /\ extract_name m' <> extract_name m.
Proof.
  exists (PStr (py "i1")), demo_map, (sset (py "concept:name") (written SInstance (PStr (py "i1"))) demo_map).
  split; [exists (py "i1"); split; [reflexivity|]; exists 105%N; split; [now left|reflexivity]|].
  split; [reflexivity|]. split; discriminate.
Qed.
Print Assumptions C52_instance_refuted.
Theorem C52_currency : forall v m, nonblank_text v -> exists m', assign_currency v m = Ok m'
  /\ extract_name m' = Ok v /\ extract_currency m' = extract_currency m /\ only_at (py "concept:name") m m'.
Proof.
  intros v m A. exists (sset (py "concept:name") (written SCurrency v) m).
  split; [exact (slot_adm SCurrency v m A)|]. split; [|split; [|apply sset_only_at]].
  - unfold extract_name. rewrite (fetch_some _ _ _ _ (sget_sset_same _ _ _)). reflexivity.
  - unfold extract_currency, fetch. rewrite sget_sset_other by discriminate. reflexivity.
Qed.
Print Assumptions C52_currency.
Theorem C52_type : forall v m, nonblank_text v -> exists m', assign_type v m = Ok m'
  /\ extract_type m' = Ok PTypeObj /\ extract_type m' <> Ok v /\ only_at (py "cost:type") m m'.
Proof.
  intros v m A. exists (sset (py "cost:type") (written SType v) m).
  assert (E : extract_type (sset (py "cost:type") (written SType v) m) = Ok PTypeObj).
  { unfold extract_type. rewrite (fetch_some _ _ _ _ (sget_sset_same _ _ _)). reflexivity. }
  split; [exact (slot_adm SType v m A)|]. split; [exact E|]. split; [|apply sset_only_at].
  rewrite E. destruct A as (s & -> & _). discriminate.
Qed.
Print Assumptions C52_type.

(** The parent identifier can be removed but never assigned, and reading it raises when it is
    not there. *)
Theorem C52_parent : forall v m, v <> PNone -> assign_parent_id v m = Raise AttributeError.
Proof. intros v m H. destruct v; try reflexivity. now destruct H. Qed.
Print Assumptions C52_parent.
Theorem C52_removed : forall m, dict_wf m ->
  (exists m', assign_parent_id PNone m = Ok m' /\ extract_parent_id m' = Raise KeyError
     /\ forall k, k <> py "micro:parentId" -> sget k m' = sget k m)
  /\ (extract_level (remove_level m) = Ok (PInt (-1))
      /\ forall k, k <> py "micro:level" -> sget k (remove_level m) = sget k m)
  /\ (extract_length (remove_length m) = Ok PNone
      /\ forall k, k <> py "micro:length" -> sget k (remove_length m) = sget k m)
  /\ (extract_parent_id (remove_parent_id m) = Raise KeyError
      /\ forall k, k <> py "micro:parentId" -> sget k (remove_parent_id m) = sget k m).
Proof.
  intros m W.
  destruct (remove_key_spec (py "micro:parentId") m W) as [A1 A2].
  destruct (remove_key_spec (py "micro:level") m W) as [B1 B2].
  destruct (remove_key_spec (py "micro:length") m W) as [D1 D2].
  split; [|split; [|split]; (split; [|assumption])].
  - eexists. split; [reflexivity|]. split; [|exact A2]. unfold extract_parent_id. now rewrite A1.
  - unfold extract_level, fetch, remove_level. now rewrite B1.
  - unfold extract_length, fetch, remove_length. now rewrite D1.
  - unfold extract_parent_id, remove_parent_id. now rewrite A1.
Qed.
Print Assumptions C52_removed.
Example C52_removed_ex :
  (let! m := assign_level (PInt 2) demo_map in let! l := extract_level m in
   let! l2 := extract_level (remove_level m) in Ok (l, l2)) = Ok (PInt 2, PInt (-1))
  /\ extract_parent_id demo_map = Raise KeyError.
Proof. split; vm_compute; reflexivity. Qed.

(** Time stamps: whatever the local clock, a date-time whose reading it gives back comes back
    to the second and without its time zone; so it comes back equal exactly if it has no
    microseconds and no time zone.  A number comes back as the local reading of that instant. *)
Theorem C52_timestamp : forall (C : Clock) d m, reads_back d ->
  exists m', assign_timestamp (PDate d) m = Ok m'
    /\ extract_timestamp m' = Ok (PDate (clock_reading d))
    /\ only_at (py "time:timestamp") m m'.
Proof. exact @timestamp_date. Qed.
Print Assumptions C52_timestamp.
Theorem C52_timestamp_equal : forall d,
  py_eq (PDate (clock_reading d)) (PDate d) = true <-> us d = 0%Z /\ tz d = None.
Proof. exact clock_reading_eq. Qed.
Print Assumptions C52_timestamp_equal.
Theorem C52_timestamp_number : forall (C : Clock) v d m, is_number v -> from_ms v = Ok d ->
  exists m', assign_timestamp v m = Ok m'
    /\ extract_timestamp m' = Ok (PDate d)
    /\ only_at (py "time:timestamp") m m'.
Proof. exact @timestamp_number. Qed.
Print Assumptions C52_timestamp_number.
(** Anything else is refused. *)
Theorem C52_timestamp_other : forall (C : Clock) v m, ~ is_number v -> (forall d, v <> PDate d) ->
  assign_timestamp v m = Raise TypeError.
Proof. exact @timestamp_other. Qed.
Print Assumptions C52_timestamp_other.
(** A clock in UTC, for dates of January 1970 only. *)
Definition january : Clock := {|
  mktime_ms := fun d => Ok (PInt ((((((dy d - 1) * 24 + hh d) * 60 + mi d) * 60) + ss d) * 1000));
  from_ms := fun v => match v with
    | PInt z => let s := (z / 1000)%Z in
        Ok (mk_dt 1970 1 (s / 86400 + 1) (s / 3600 mod 24) (s / 60 mod 60) (s mod 60) (z mod 1000 * 1000) None)
    | _ => Raise OverflowError
    end |}%Z.
Definition noon : datetime := mk_dt 1970 1 3 12 30 15 250000 (Some (mk_tz 3600000000 None)).
Example C52_timestamp_ex : @reads_back january noon
  /\ (let! m := @assign_timestamp january (PDate noon) demo_map in extract_timestamp m)
     = Ok (PDate (mk_dt 1970 1 3 12 30 15 0 None))
  /\ py_eq (PDate (clock_reading noon)) (PDate noon) = false.
Proof.
  split; [eexists; split; [reflexivity|split; [eexists; reflexivity|vm_compute; reflexivity]]|].
  split; vm_compute; reflexivity.
Qed.

(** ** C53: lifecycle decoding *)
Theorem C53_decode : forall s,
  standard_transition (decode s)
  /\ (standard_transition s -> decode s = s)
  /\ (forall t, same_but_case s t -> decode s = decode t)
  /\ (forall t, blank_around s t -> decode t = decode s).
Proof.
  intros s. split; [apply decode_standard|]. split; [apply decode_fixed|].
  split; [intros t; apply decode_case|intros t; apply decode_blank].
Qed.
Print Assumptions C53_decode.
(** Exactly the case variants of a transition with white space around decode to it; everything
    else is unknown. *)
Theorem C53_exact : forall s w, standard_transition w -> w <> py "unknown" ->
  (decode s = w <-> exists t, blank_around t s /\ same_but_case t w).
Proof. exact decode_exact. Qed.
Print Assumptions C53_exact.
Theorem C53_unknown : forall s, decode s = py "unknown" <->
  forall w, standard_transition w -> w <> py "unknown" -> ~ exists t, blank_around t s /\ same_but_case t w.
Proof. exact decode_unknown. Qed.
Print Assumptions C53_unknown.
Theorem C53_round_trip : forall t m,
  (exists m', assign_standard_transition (PStr t) m = Ok m'
     /\ extract_standard_transition m' = Ok (PStr (decode t))
     /\ extract_transition m' = Ok (PStr (decode t))
     /\ only_at (py "lifecycle:transition") m m')
  /\ (standard_transition t -> decode t = t).
Proof. intros t m. split; [apply standard_round|apply decode_fixed]. Qed.
Print Assumptions C53_round_trip.
(** Anything but text is refused, on the way in and on the way out; only None comes back as
    None, as does an attribute that is missing. *)
Theorem C53_others :
  (forall v m, (forall s, v <> PStr s) -> assign_standard_transition v m = Raise AttributeError)
  /\ (forall m, sget (py "lifecycle:transition") m = None -> extract_standard_transition m = Ok PNone)
  /\ (forall m a v, sget (py "lifecycle:transition") m = Some a -> get_value a = Ok v ->
       (forall s, v = PStr s -> extract_standard_transition m = Ok (PStr (decode s)))
       /\ (v = PNone -> extract_standard_transition m = Ok PNone)
       /\ (v <> PNone -> (forall s, v <> PStr s) -> extract_standard_transition m = Raise AttributeError)).
Proof. exact standard_others. Qed.
Print Assumptions C53_others.
Example C53_others_ex :
  assign_standard_transition PNone demo_map = Raise AttributeError
  /\ extract_standard_transition [(py "lifecycle:transition", mk_attr CDiscrete (py "lifecycle:transition") None (PInt 1) [] [])]
     = Raise AttributeError
  /\ extract_standard_transition [(py "lifecycle:transition", mk_attr CLiteral (py "lifecycle:transition") None (PStr (py " Start ")) [] [])]
     = Ok (PStr (py "start")).
Proof. repeat split; vm_compute; reflexivity. Qed.
(** A log uses the standard model iff its model attribute holds the word "standard", with or
    without white space around; the check raises only AttributeError, for a model attribute
    without text. *)
Theorem C53_standard_model : forall m,
  (uses_standard_model m = Ok true
   <-> exists a s, sget (py "lifecycle:model") m = Some a /\ get_value a = Ok (PStr s) /\ blank_around (py "standard") s)
  /\ (forall e, uses_standard_model m = Raise e ->
       e = AttributeError /\ exists a, sget (py "lifecycle:model") m = Some a /\ forall s, get_value a <> Ok (PStr s)).
Proof. exact uses_standard. Qed.
Print Assumptions C53_standard_model.
(** The default value of the template is another word. *)
Theorem C53_template_refuted : exists m, sget (py "lifecycle:model") m = Some ATTR_MODEL /\ uses_standard_model m = Ok false.
Proof. exists [(py "lifecycle:model", ATTR_MODEL)]. split; reflexivity. Qed.
Print Assumptions C53_template_refuted.
Example C53_standard_ex :
  uses_standard_model [] = Ok false
  /\ (let! m := assign_model (PStr (py " standard ")) demo_map in uses_standard_model m) = Ok true
  /\ (let! m := assign_model (PStr (py "Standard")) demo_map in uses_standard_model m) = Ok false
  /\ uses_standard_model [(py "lifecycle:model", mk_attr CDiscrete (py "lifecycle:model") None (PInt 1) [] [])] = Raise AttributeError.
Proof. repeat split; vm_compute; reflexivity. Qed.
Example C53_ex :
  decode (py "  PI_Abort ") = py "pi_abort" /\ decode (py "finished") = py "unknown"
  /\ blank_around (py "Start") (py " Start  ") /\ same_but_case (py "StaRT") (py "sTart")
  /\ (let! m := assign_standard_transition (PStr (py "RESUME ")) demo_map in extract_standard_transition m)
     = Ok (PStr (py "resume")).
Proof.
  split; [vm_compute; reflexivity|]. split; [vm_compute; reflexivity|].
  split; [exists (py " "), (py "  "); repeat constructor|]. split; vm_compute; reflexivity.
Qed.

(** ** C54: model references do not survive *)

(** What comes back is the lower-cased text of all references, cut at each backslash followed
    by the letter s: a single text if there is no such place. *)
Theorem C54_result : forall refs m,
  (refs = [] -> assign_model_references (map PStr refs) m = Ok m)
  /\ (refs <> [] -> exists m', assign_model_references (map PStr refs) m = Ok m'
      /\ extract_model_references m' = Ok (split (py "\s") (lower (ref_text refs)))
      /\ only_at (py "semantic:modelReference") m m').
Proof. intros refs m. split; [intros ->; reflexivity|apply refs_round]. Qed.
Print Assumptions C54_result.
Theorem C54_single : forall refs, contains (py "\s") (lower (ref_text refs)) = false ->
  split (py "\s") (lower (ref_text refs)) = [lower (ref_text refs)].
Proof. intros refs H. apply split_none; [discriminate|exact H]. Qed.
Print Assumptions C54_single.
(** A list with anything but text is refused, and so is reading an attribute that does not hold
    text. *)
Theorem C54_not_text :
  (forall refs m, assign_model_references refs m = Raise TypeError <-> exists v, In v refs /\ forall s, v <> PStr s)
  /\ (forall m a v, sget (py "semantic:modelReference") m = Some a -> get_value a = Ok v -> (forall s, v <> PStr s) ->
       extract_model_references m = Raise AttributeError).
Proof. exact refs_not_text. Qed.
Print Assumptions C54_not_text.
Example C54_not_text_ex : assign_model_references [PStr (py "a"); PInt 1] demo_map = Raise TypeError.
Proof. vm_compute. reflexivity. Qed.
(** No non-empty list ever comes back. *)
Theorem C54_never : forall refs m m', refs <> [] ->
  assign_model_references (map PStr refs) m = Ok m' -> extract_model_references m' <> Ok refs.
Proof.
  intros refs m m' NE E. destruct (refs_round refs m NE) as (m2 & E2 & X & _).
  rewrite E in E2. injection E2 as <-. rewrite X. intros [= H]. exact (refs_never refs NE H).
Qed.
Print Assumptions C54_never.
(** References given as URIs are stored by their texts in the same way; reading URIs parses the
    texts that come back, and fails with ValueError iff one of them is no URL. *)
Theorem C54_uris : forall U (urlparse : pystr -> option U) (geturl : U -> pystr) refs m, refs <> [] ->
  let texts := split (py "\s") (lower (ref_text (map geturl refs))) in
  exists m', assign_model_reference_uris geturl refs m = Ok m'
    /\ only_at (py "semantic:modelReference") m m'
    /\ match extract_model_reference_uris urlparse m' with
       | Ok us => map urlparse texts = map Some us
       | Raise e => e = ValueError /\ exists t, In t texts /\ urlparse t = None
       end.
Proof. exact @uris_round. Qed.
Print Assumptions C54_uris.
Example C54_uris_ex :
  let parse := fun t => if str_eqb t (py "http://[ ") then None else Some t in
  (let! m := assign_model_reference_uris (fun u => u) [py "http://a"; py "http://b"] demo_map in
   extract_model_reference_uris parse m) = Ok [py "http://a http://b "]
  /\ (let! m := assign_model_reference_uris (fun u => u) [py "http://["] demo_map in
      extract_model_reference_uris parse m) = Raise ValueError.
Proof. split; vm_compute; reflexivity. Qed.
Example C54_ex :
  (let! m := assign_model_references [PStr (py "http://a#X"); PStr (py "http://b#Y")] demo_map in
   extract_model_references m) = Ok [py "http://a#x http://b#y "]
  /\ contains (py "\s") (lower (ref_text [py "http://a#X"])) = false
  /\ (let! m := assign_model_references [PStr (py "a\Sb")] demo_map in extract_model_references m) = Ok [py "a"; py "b "].
Proof. split; [|split]; vm_compute; reflexivity. Qed.

(** ** C55: nested cost values *)

(** Extraction never returns anything but an empty dictionary.  It is empty exactly if nothing
    at any depth carries a value; the exceptions are TypeError (a value is carried: a list is
    used as a dictionary key) and AttributeError (the value attribute is a collection). *)
Theorem C55_extract : forall n m,
  (extract_nested n m = Ok [] <-> (forall a, descendant m a -> ~ carries n a /\ ~ unreadable n a))
  /\ (forall e, extract_nested n m = Raise e ->
        (e = TypeError /\ exists a, descendant m a /\ carries n a)
        \/ (e = AttributeError /\ exists a, descendant m a /\ unreadable n a)).
Proof. intros n m. apply walk_outcomes. apply extract_nested_walk. Qed.
Print Assumptions C55_extract.
Theorem C55_extract_type_error : forall n m, (forall a, descendant m a -> ~ unreadable n a) ->
  (extract_nested n m = Raise TypeError <-> exists a, descendant m a /\ carries n a)
  /\ (extract_nested n m = Ok [] <-> ~ exists a, descendant m a /\ carries n a).
Proof. intros n m. apply walk_type_error. apply extract_nested_walk. Qed.
Print Assumptions C55_extract_type_error.
Theorem C55_extract_children : forall n m, (forall a, descendant m a -> ~ unreadable n a) ->
  (extract_children n m = Raise TypeError <-> exists a, descendant m a /\ carries n a)
  /\ (extract_children n m = Ok [] <-> ~ exists a, descendant m a /\ carries n a).
Proof. intros n m. apply walk_type_error. apply extract_children_walk. Qed.
Print Assumptions C55_extract_children.
Example C55_extract_ex :
  (exists a, descendant demo_map a /\ carries NAmount a)
  /\ extract_nested_amounts demo_map = Raise TypeError /\ extract_nested_drivers demo_map = Ok [].
Proof.
  split; [|split; vm_compute; reflexivity].
  exists (mk_attr CLiteral (py "org:resource") None (PStr (py "Ana")) [] demo_meta).
  split; [eapply d_here; right; left; reflexivity|].
  eexists. split; [vm_compute; reflexivity|split; reflexivity].
Qed.

(** Assigning values along distinct paths that do not run through the value's own key: every
    value is stored at the end of its path, path elements are kept or created, and nothing off
    the paths changes. *)
Theorem C55_assign : forall n l m,
  (forall p v, In (p, v) l -> p <> [] /\ ~ In (nkey n) p /\ admissible (nslot n) v) ->
  NoDup (map fst l) ->
  exists m', assign_nested n l m = (m', Ok tt)
    /\ (forall p v, In (p, v) l -> at_path (p ++ [nkey n]) m' = Some (written (nslot n) v))
    /\ (forall p v q, In (p, v) l -> q <> [] -> prefix_of q p -> kept_or_made q m m')
    /\ (forall q, (forall p v, In (p, v) l -> ~ prefix_of q p /\ ~ prefix_of (p ++ [nkey n]) q) -> at_path q m' = at_path q m).
Proof. exact nested_all. Qed.
Print Assumptions C55_assign.
(** One path, any value: also when the value is passed over or refused, the path elements are
    there afterwards and everything else is as before. *)
Theorem C55_path : forall n p v m, p <> [] ->
  let m' := fst (assign_nested n [(p, v)] m) in
  (forall q, q <> [] -> prefix_of q p -> kept_or_made q m m')
  /\ (forall q, ~ prefix_of q p -> ~ prefix_of (p ++ [nkey n]) q -> at_path q m' = at_path q m)
  /\ (admissible (nslot n) v -> at_path (p ++ [nkey n]) m' = Some (written (nslot n) v)).
Proof.
  intros n p v m NE m'.
  assert (E : m' = fst (assign_path (slot_assign (nslot n)) p v m)).
  { unfold m'. rewrite assign_nested_slot. cbn [assign_nested_values].
    destruct (assign_path _ p v m) as [m1 [[]|e]]; reflexivity. }
  rewrite E. split; [|split].
  - intros q. apply path_made.
  - intros q. apply path_frame; [exact NE|apply leaf_cases].
  - intros A. apply path_leaf; [exact NE|]. intros m0. rewrite (slot_adm _ v m0 A), (nslot_written n v). reflexivity.
Qed.
Print Assumptions C55_path.
(** The first value that is refused ends the assignment: those before it stay, those after it are
    not looked at. *)
Theorem C55_refused : forall n l p v l' m m1 m2 e,
  assign_nested n l m = (m1, Ok tt) -> assign_nested n [(p, v)] m1 = (m2, Raise e) ->
  assign_nested n (l ++ (p, v) :: l') m = (m2, Raise e).
Proof.
  intros n l p v l' m m1 m2 e. rewrite !assign_nested_slot. revert m. induction l as [|[q w] l IH]; intros m A B.
  - injection A as ->. cbn [app assign_nested_values] in *. destruct (assign_path _ p v m1) as [m3 [[]|e3]]; [discriminate|exact B].
  - cbn [app assign_nested_values] in *. destruct (assign_path _ q w m) as [m3 [[]|e3]]; [now apply IH|discriminate].
Qed.
Print Assumptions C55_refused.
Example C55_refused_ex :
  let bad := ([py "a"], PInt 3) in
  assign_nested NDriver [([py "b"], PStr (py "x"))] [] = (fst (assign_nested NDriver [([py "b"], PStr (py "x"))] []), Ok tt)
  /\ snd (assign_nested NDriver [bad] []) = Raise AttributeError
  /\ map fst (fst (assign_nested NDriver [([py "b"], PStr (py "x")); bad; ([py "c"], PStr (py "y"))] [])) = [py "b"; py "a"].
Proof. vm_compute. repeat split. Qed.
(** An empty path, and an empty dictionary, change nothing. *)
Theorem C55_nothing : forall n v m,
  assign_nested n [([], v)] m = (m, Ok tt) /\ assign_nested n [] m = (m, Ok tt)
  /\ assign_amounts [] m = (m, Ok tt) /\ assign_drivers [] m = (m, Ok tt) /\ assign_types [] m = (m, Ok tt).
Proof. intros n v m. destruct n; repeat split. Qed.
Print Assumptions C55_nothing.
(** Assigning amounts or drivers by key alone fails for every non-empty dictionary and changes nothing; assigning
    types by key alone takes each key as a path of single characters. *)
Theorem C55_by_key : forall values m, values <> [] ->
  assign_amounts values m = (m, Raise TypeError) /\ assign_drivers values m = (m, Raise TypeError).
Proof. intros [|kv t] m H; [now destruct H|]. split; reflexivity. Qed.
Print Assumptions C55_by_key.
Theorem C55_types_by_key : forall k v m, k <> [] -> nonblank_text v ->
  exists a, at_path (map (fun c => [c]) k ++ [py "cost:type"]) (fst (assign_types [(k, v)] m)) = Some a
    /\ a_val a = PTypeObj.
Proof.
  intros k v m NE A. change (assign_types [(k, v)] m) with (assign_nested NType [(map (fun c => [c]) k, v)] m).
  assert (NE' : map (fun c => [c]) k <> []) by (destruct k; [now destruct NE|discriminate]).
  destruct (C55_path NType _ v m NE') as (_ & _ & W). eexists. split; [exact (W A)|reflexivity].
Qed.
Print Assumptions C55_types_by_key.
Example C55_assign_ex :
  let l := [([py "a"], PInt 10); ([py "a"; py "b"], PInt 20); ([py "org:resource"], PInt 7)] in
  (forall p v, In (p, v) l -> p <> [] /\ ~ In (nkey NAmount) p /\ admissible (nslot NAmount) v)
  /\ NoDup (map fst l)
  /\ option_map a_val (at_path [py "a"; py "b"; py "cost:amount"] (fst (assign_nested NAmount l demo_map))) = Some (PInt 20)
  /\ option_map a_val (at_path [py "org:resource"] (fst (assign_nested NAmount l demo_map))) = Some (PStr (py "Ana")).
Proof.
  split; [|split; [|split; vm_compute; reflexivity]].
  - intros p v H. repeat (destruct H as [[= <- <-]|H]; [split; [discriminate|]; split;
      [cbn [In]; intros Q; repeat (destruct Q as [Q|Q]; [discriminate|]); exact Q|eexists; split; reflexivity]|]). destruct H.
  - repeat constructor; cbn [In map fst]; intros Q; repeat (destruct Q as [Q|Q]; [discriminate|]); exact Q.
Qed.

(** ** C60: XExtendedEvent lower-cases resource, role and group *)
Theorem C60_lower : forall s m, (exists c, In c s /\ is_space c = false) ->
  (let! m' := xe_set_resource (PStr s) m in extract_resource m') = Ok (PStr (lower s))
  /\ (let! m' := xe_set_role (PStr s) m in extract_role m') = Ok (PStr (lower s))
  /\ (let! m' := xe_set_group (PStr s) m in extract_group m') = Ok (PStr (lower s)).
Proof.
  intros s m (c & I1 & S0).
  assert (A : nonblank_text (PStr (lower s))).
  { exists (lower s). split; [reflexivity|].
    exact (lower_nonspace s c I1 S0). }
  assert (G : forall sl, ~ odd_slot sl -> admissible sl (PStr (lower s)) -> kept sl (PStr (lower s)) = PStr (lower s) ->
    (let! m' := slot_assign sl (PStr (lower s)) m in slot_extract sl m') = Ok (PStr (lower s))).
  { intros sl O B K. destruct (assign_extract sl (PStr (lower s)) m O B) as (m' & E & X & _). rewrite E. cbn [bind]. now rewrite X, K. }
  split; [apply (G SResource)|split; [apply (G SRole)|apply (G SGroup)]]; try exact A; try reflexivity;
    intros [|[|]]; discriminate.
Qed.
Print Assumptions C60_lower.
(** Blank text changes nothing; anything but text, None included, is an AttributeError. *)
Theorem C60_otherwise : forall m,
  (forall s, (forall c, In c s -> is_space c = true) ->
     xe_set_resource (PStr s) m = Ok m /\ xe_set_role (PStr s) m = Ok m /\ xe_set_group (PStr s) m = Ok m)
  /\ (forall v, (forall s, v <> PStr s) ->
     xe_set_resource v m = Raise AttributeError /\ xe_set_role v m = Raise AttributeError
     /\ xe_set_group v m = Raise AttributeError).
Proof. exact xe_set_otherwise. Qed.
Print Assumptions C60_otherwise.
Example C60_ex : (let! m := xe_set_resource (PStr (py "Ana B.")) demo_map in extract_resource m) = Ok (PStr (py "ana b.")).
Proof. vm_compute. reflexivity. Qed.
Example C60_otherwise_ex :
  (forall c, In c (py "  ") -> is_space c = true) /\ (forall s, PNone <> PStr s)
  /\ xe_set_role (PStr (py "  ")) demo_map = Ok demo_map /\ xe_set_role PNone demo_map = Raise AttributeError.
Proof.
  split; [|split; [discriminate|split; vm_compute; reflexivity]].
  intros c H. repeat (destruct H as [<-|H]; [reflexivity|]). destruct H.
Qed.
