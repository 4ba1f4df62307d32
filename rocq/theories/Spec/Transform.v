(** What the example scripts should (or do) compute. *)
From Coq Require Import String NArith ZArith List Bool Permutation.
From Verif Require Import Base.PyBase Base.PyDate Base.PyVal Model.Attr Model.Log
  Model.Classify.
Import ListNotations.

(** ** One trace per variant *)

Section WithFloatIO.
Context `{FIO : FloatIO}.

(** The variant of a trace: the identities of its events. *)
Definition variant (c : classifier) (t : trace) : res (list pystr) :=
  map_res (class_identity c) (tr_events t).
End WithFloatIO.

(** [x] is at a position of [l] where it occurs for the first time. *)
Definition first_at (l : list (list pystr)) (i : nat) : Prop :=
  i < List.length l /\ ~ In (nth i l []) (firstn i l).

(** ** Anonymous logs *)

Definition hidden_key (k : pystr) : Prop := k = py "Resource" \/ k = py "org:resource".

(** The attribute before and after: only the value of a resource changes. *)
Definition hidden (a b : attr) : Prop :=
  (~ hidden_key (a_key a) /\ b = a) \/
  (hidden_key (a_key a) /\
   b = mk_attr (a_cls a) (a_key a) (a_ext a) (PStr (py "UNKNOWN")) (a_coll a) (a_meta a)).

Definition hidden_in (x y : pystr * attr) : Prop := fst y = fst x /\ hidden (snd x) (snd y).

(** The attributes the script looks at. *)
Definition top_attrs (l : xlog) : list attr :=
  lg_gtrace l ++ lg_gevent l ++ flat_map (fun t => map snd (tr_attrs t)) (lg_traces l)
  ++ flat_map (fun e => map snd (ev_attrs e)) (log_events l).

Definition hidden_event (e f : event) : Prop :=
  ev_id f = ev_id e /\ Forall2 hidden_in (ev_attrs e) (ev_attrs f).
Definition hidden_trace (t u : trace) : Prop :=
  Forall2 hidden_in (tr_attrs t) (tr_attrs u) /\ Forall2 hidden_event (tr_events t) (tr_events u).

(** A resource without a value: a list or container. *)
Definition bad (a : attr) : Prop := hidden_key (a_key a) /\ is_collection (a_cls a) = true.

(** ** Rows of a table *)

Definition case_of (line : pystr) : pystr := hd [] (split (py ";") line).

(** What a cell becomes, depending on the title of its column: a text, a time if the title is a
    format with a year (always under the key "time"), or a whole number. *)
Inductive cell_is (strp : pystr -> pystr -> option datetime) (title cell : pystr) : attr -> Prop :=
| cell_text : title = py "Activity" \/ title = py "Resource" ->
    cell_is strp title cell (mk_attr CLiteral title None (PStr cell) [] [])
| cell_time d : title <> py "Activity" -> title <> py "Resource" -> contains (py "%Y") title = true -> strp cell title = Some d ->
    cell_is strp title cell (mk_attr CTimestamp (py "time") None (PDate d) [] [])
| cell_number z : title <> py "Activity" -> title <> py "Resource" -> contains (py "%Y") title = false -> py_int 10 cell = Some z ->
    cell_is strp title cell (mk_attr CDiscrete title None (PInt z) [] []).

(** Rows are cut into groups before each row whose case differs from [c0]. *)
Fixpoint cut {A} (c0 : pystr) (cur : list A) (rows : list (pystr * A)) : list (list A) :=
  match rows with
  | [] => [cur]
  | (c, a) :: t => if str_eqb c c0 then cut c0 (cur ++ [a]) t else cur :: cut c0 [a] t
  end.

(** What one would expect: one group per run of rows with the same case. *)
Fixpoint runs {A} (c0 : pystr) (cur : list A) (rows : list (pystr * A)) : list (list A) :=
  match rows with
  | [] => [cur]
  | (c, a) :: t => if str_eqb c c0 then runs c0 (cur ++ [a]) t else cur :: runs c [a] t
  end.
