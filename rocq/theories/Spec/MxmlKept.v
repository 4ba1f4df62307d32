(** What the MXML file of a log holds. *)
From Coq Require Import String NArith ZArith List Bool.
From Verif Require Import Base.PyBase Base.PyVal Model.Attr Model.Log Spec.Mxml Spec.XmlLines.
Import ListNotations.

Section Kept.
Context `{FIO : FloatIO}.

Definition ref_text (m : sdict attr) : option pystr := text_of "semantic:modelReference" m.
(** The texts of the model references among the attributes, whatever they are filed under. *)
Definition ref_data (m : sdict attr) : list pystr :=
  map (fun a => match attr_str a with Ok s => lf_only s | Raise _ => [] end)
      (filter (fun a => str_eqb (a_key a) (py "semantic:modelReference")) (map snd m)).
(** Values that are no texts leave an element empty. *)
Definition text_val (v : pyval) : pystr := match v with PStr s => lf_only s | _ => [] end.
Definition field (text : pyval -> pystr) (o : option attr) : option (pystr * option pystr) :=
  option_map (fun a => (text (a_val a), ref_text (a_meta a))) o.
Definition or_else {A} (o p : option A) : option A := match o with Some _ => o | None => p end.

(** One of the twelve types in lower case, or the text of another. *)
Definition twelve : list pystr :=
  [py "schedule"; py "assign"; py "withdraw"; py "reassign"; py "start"; py "suspend"; py "resume";
   py "pi_abort"; py "ate_abort"; py "complete"; py "autoskip"; py "manualskip"].
Definition type_kept (m : sdict attr) : pystr + pystr :=
  match sget (py "lifecycle:transition") m with
  | None => inl (py "complete")
  | Some a => let s := match a_val a with PStr s => s | _ => [] end in
              let t := lower (strip s) in
              if existsb (str_eqb t) twelve then inl t else inr s
  end.

Record kept_event : Type := mk_ke {
  ke_data : list pystr; ke_ref : option pystr; ke_name : pystr;
  ke_type : pystr + pystr; ke_type_ref : option pystr;
  ke_who : option (pystr * option pystr); ke_when : option (pystr * option pystr) }.
Record kept_trace : Type := mk_kt { kt_name : pystr; kt_ref : option pystr; kt_data : list pystr; kt_events : list kept_event }.
Record kept_log : Type := mk_kl { kl_name : option pystr; kl_ref : option pystr; kl_data : list pystr; kl_traces : list kept_trace }.

Definition event_kept (e : event) : kept_event :=
  let m := ev_attrs e in
  mk_ke (ref_data m) (ref_text m)
        (match sget (py "concept:name") m with Some a => text_val (a_val a) | None => [] end)
        (type_kept m)
        (match sget (py "lifecycle:transition") m with Some a => ref_text (a_meta a) | None => None end)
        (field text_val (or_else (sget (py "org:resource") m) (or_else (sget (py "org:role") m) (sget (py "org:group") m))))
        (field (fun v => lf_only (py_str v)) (sget (py "time:timestamp") m)).
(** A trace without a name is one with the name None. *)
Definition trace_kept (t : trace) : kept_trace :=
  mk_kt (match text_of "concept:name" (tr_attrs t) with Some s => s | None => py "None" end)
        (ref_text (tr_attrs t)) (ref_data (tr_attrs t)) (map event_kept (tr_events t)).
Definition log_kept (l : xlog) : kept_log :=
  mk_kl (text_of "concept:name" (lg_attrs l)) (ref_text (lg_attrs l)) (ref_data (lg_attrs l)) (map trace_kept (lg_traces l)).
End Kept.
