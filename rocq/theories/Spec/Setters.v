(** Specification of the extension setters and getters: which value is admissible, what is
    kept of it, and where it is kept. *)
From Coq Require Import String NArith ZArith List Bool.
From Verif Require Import Base.PyBase Base.PyDate Base.PyVal Model.Attr Model.StdExt.
Import ListNotations.

(** ** Slots: one per pair of setter and getter *)
Inductive slot : Type :=
| SName | SInstance | SResource | SRole | SGroup | SModel | STransition
| STotal | SCurrency | SAmount | SDriver | SType | SId | SLevel | SLength.

Definition slot_assign (sl : slot) : setter :=
  match sl with
  | SName => assign_name | SInstance => assign_instance
  | SResource => assign_resource | SRole => assign_role | SGroup => assign_group
  | SModel => assign_model | STransition => assign_transition
  | STotal => assign_total | SCurrency => assign_currency | SAmount => assign_amount
  | SDriver => assign_driver | SType => assign_type
  | SId => assign_id | SLevel => assign_level | SLength => assign_length
  end.
Definition slot_extract (sl : slot) : getter :=
  match sl with
  | SName => extract_name | SInstance => extract_instance
  | SResource => extract_resource | SRole => extract_role | SGroup => extract_group
  | SModel => extract_model | STransition => extract_transition
  | STotal => extract_total | SCurrency => extract_currency | SAmount => extract_amount
  | SDriver => extract_driver | SType => extract_type
  | SId => extract_id | SLevel => extract_level | SLength => extract_length
  end.

(** The documented key. *)
Definition slot_key (sl : slot) : pystr :=
  match sl with
  | SName => py "concept:name" | SInstance => py "concept:instance"
  | SResource => py "org:resource" | SRole => py "org:role" | SGroup => py "org:group"
  | SModel => py "lifecycle:model" | STransition => py "lifecycle:transition"
  | STotal => py "cost:total" | SCurrency => py "cost:currency" | SAmount => py "cost:amount"
  | SDriver => py "cost:driver" | SType => py "cost:type"
  | SId => py "identity:id" | SLevel => py "micro:level" | SLength => py "micro:length"
  end.
(** The class and the extension of the stored attribute. *)
Definition slot_class (sl : slot) : acls :=
  match sl with
  | STotal | SAmount => CContinuous
  | SId => CID
  | SLevel | SLength => CDiscrete
  | _ => CLiteral
  end.
Definition slot_ext (sl : slot) : xext :=
  match sl with
  | SName | SInstance => ext_concept
  | SResource | SRole | SGroup => ext_org
  | SModel | STransition => ext_lifecycle
  | STotal | SCurrency | SAmount | SDriver | SType => ext_cost
  | SId => ext_identity
  | SLevel | SLength => ext_micro
  end.

(** The three slots whose setter does not do what it says. *)
Definition odd_slot (sl : slot) : Prop := sl = SInstance \/ sl = SCurrency \/ sl = SType.

(** A text with something else than white space in it. *)
Definition nonblank_text (v : pyval) : Prop :=
  exists s, v = PStr s /\ exists c, In c s /\ is_space c = false.
(** A number, and whether it is greater than zero. *)
Definition number_cmp0 (v : pyval) (c : comparison) : Prop :=
  exists n, num_of v = Some n /\ num_cmp n (NFin 0 0) = Some c.
Definition is_number (v : pyval) : Prop := exists n, num_of v = Some n.

Definition admissible (sl : slot) (v : pyval) : Prop :=
  match sl with
  | STotal | SAmount | SLevel => number_cmp0 v Gt
  | SLength => number_cmp0 v Gt \/ number_cmp0 v Eq
  | SId => v <> PNone
  | _ => nonblank_text v
  end.
(** Values that the setter passes over without an effect. *)
Definition passed_over (sl : slot) (v : pyval) : Prop :=
  match sl with
  | STotal | SAmount => v = PNone \/ (is_number v /\ ~ admissible sl v)
  | SLevel | SLength => is_number v /\ ~ admissible sl v
  | SId => v = PNone
  | _ => v = PNone \/ exists s, v = PStr s /\ Forall (fun c => is_space c = true) s
  end.
(** The exception for all other values. *)
Definition slot_error (sl : slot) (v : pyval) : exn :=
  match sl with
  | STotal | SAmount | SLevel | SLength => match v with PXid _ => AttributeError | _ => TypeError end
  | _ => AttributeError
  end.

(** What is kept of an admissible value. *)
Definition kept (sl : slot) (v : pyval) : pyval :=
  match sl, v with
  | SModel, PStr s | STransition, PStr s => PStr (strip s)
  | _, _ => v
  end.

(** What the getter gives if there is no such attribute. *)
Definition absent_value (sl : slot) : pyval := match sl with SLevel => PInt (-1) | _ => PNone end.

(** Only the entry under [k] may differ; entries keep their order, a new one comes last. *)
Definition only_at {V} (k : pystr) (m m' : sdict V) : Prop :=
  (forall k', k' <> k -> sget k' m' = sget k' m)
  /\ ((In k (map fst m) /\ map fst m' = map fst m)
      \/ (~ In k (map fst m) /\ map fst m' = map fst m ++ [k])).

(** ** Histories of assignments *)

(** The key an effective call writes to and the attribute it leaves there. *)
Definition written_key (sl : slot) : pystr :=
  match sl with SInstance | SCurrency => py "concept:name" | _ => slot_key sl end.
Definition written (sl : slot) (v : pyval) : attr :=
  mk_attr (slot_class sl) (slot_key sl) (Some (slot_ext sl))
          (match sl with SType => PTypeObj | _ => kept sl v end) [] [].

Definition run_assigns (calls : list (slot * pyval)) (m : sdict attr) : res (sdict attr) :=
  fold_res (fun m c => slot_assign (fst c) (snd c) m) calls m.

(** [last_write calls k a]: the last call that wrote to [k] left [a] there. *)
Definition last_write (calls : list (slot * pyval)) (k : pystr) (a : attr) : Prop :=
  exists before sl v after,
    calls = before ++ (sl, v) :: after
    /\ written_key sl = k /\ admissible sl v /\ written sl v = a
    /\ forall sl2 v2, In (sl2, v2) after -> written_key sl2 = k -> passed_over sl2 v2.
Definition no_write (calls : list (slot * pyval)) (k : pystr) : Prop :=
  forall sl v, In (sl, v) calls -> written_key sl = k -> passed_over sl v.

(** ** Time stamps *)

(** The reading of a date-time's clock to the second, without time zone. *)
Definition clock_reading (d : datetime) : datetime :=
  mk_dt (yr d) (mo d) (dy d) (hh d) (mi d) (ss d) 0 None.
(** The local clock gives the reading of [d] back (in the local time zone, the reading of [d]
    is neither skipped nor repeated). *)
Definition reads_back `{Clock} (d : datetime) : Prop :=
  exists x, mktime_ms d = Ok x /\ is_number x /\ from_ms x = Ok (clock_reading d).

(** ** Lifecycle *)
Definition standard_transition (s : pystr) : Prop :=
  In s [py "schedule"; py "assign"; py "withdraw"; py "reassign"; py "start"; py "suspend";
        py "resume"; py "pi_abort"; py "ate_abort"; py "complete"; py "autoskip"; py "manualskip";
        py "unknown"].
(** [blank_around s t]: [t] is [s] with white space around it. *)
Definition blank_around (s t : pystr) : Prop :=
  exists a b, t = a ++ s ++ b /\ Forall (fun c => is_space c = true) a /\ Forall (fun c => is_space c = true) b.
(** Equal but for case. *)
Definition same_but_case (s t : pystr) : Prop := lower s = lower t.

(** ** Model references: the references one after the other, each followed by a blank. *)
Definition ref_text (refs : list pystr) : pystr := flat_map (fun r => r ++ py " ") refs.
