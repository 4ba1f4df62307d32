(** Wrappers as plain names of events, events as plain values. *)
From Coq Require Import String ZArith List.
From Verif Require Import Base.PyBase Base.PyDate Base.PyVal Model.Attr Model.StdExt Model.Wrapper Spec.Setters.
Import ListNotations.

(** The contents of the events, and the event each wrapper stands for. *)
Record simple : Type := mk_s { s_events : list (sdict attr); s_names : list nat }.

Definition s_change (f : sdict attr -> res (sdict attr)) (e : nat) (s : simple) : simple :=
  mk_s (update e (fun d => match f d with Ok d' => d' | Raise _ => d end) (s_events s)) (s_names s).

Section Simple.
Context `{C : Clock}.
Definition s_step (s : simple) (o : wop) : simple :=
  match o with
  | ONew => mk_s (s_events s ++ [[]]) (s_names s)
  | OWrap e => if Nat.ltb e (List.length (s_events s)) then mk_s (s_events s) (s_names s ++ [e]) else s
  | OCall k c => match nth_error (s_names s) k with Some e => s_change (wrapper_set c) e s | None => s end
  | OEvent e c => s_change (wrapper_set c) e s
  | OReplace k d => match nth_error (s_names s) k with Some e => s_change (fun _ => Ok d) e s | None => s end
  | OClone k =>
      match nth_error (s_names s) k with
      | Some e => match nth_error (s_events s) e with
                  | Some d => mk_s (s_events s ++ [d]) (s_names s ++ [List.length (s_events s)])
                  | None => s
                  end
      | None => s
      end
  end.
Definition s_run (ops : list wop) : simple := fold_left s_step ops (mk_s [] []).
End Simple.

(** What is seen through a wrapper. *)
Definition s_map (s : simple) (k : nat) : option (sdict attr) :=
  match nth_error (s_names s) k with Some e => nth_error (s_events s) e | None => None end.

(** [reads c g v]: after the call [c] of a setter the getter [g] gives [v]. *)
Inductive reads `{C : Clock} : wcall -> wget -> pyval -> Prop :=
| r_name s : nonblank_text (PStr s) -> reads (WName (PStr s)) GName (PStr s)
| r_instance s : nonblank_text (PStr s) -> reads (WInstance (PStr s)) GName (PStr s)
| r_resource s : nonblank_text (PStr s) -> reads (WResource (PStr s)) GResource (PStr (lower s))
| r_role s : nonblank_text (PStr s) -> reads (WRole (PStr s)) GRole (PStr (lower s))
| r_group s : nonblank_text (PStr s) -> reads (WGroup (PStr s)) GGroup (PStr (lower s))
| r_transition s : nonblank_text (PStr s) -> reads (WTransition (PStr s)) GTransition (PStr (strip s))
| r_known s : nonblank_text (PStr s) -> reads (WTransition (PStr s)) GStandard (PStr (decode s))
| r_standard s : reads (WStandard (PStr s)) GStandard (PStr (decode s))
| r_plain s : reads (WStandard (PStr s)) GTransition (PStr (decode s))
| r_time d : reads_back d -> reads (WTime (PDate d)) GTime (PDate (clock_reading d)).
(** What a getter gives for an event without attributes. *)
Definition nothing_set (g : wget) : pyval := match g with GTime => PInt (-1)%Z | _ => PNone end.
