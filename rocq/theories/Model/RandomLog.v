(** Making attributes (/repo/src/opyenxes/factory/XFactory.py, model/XAttributeTimestamp.py) and
    /repo/example/Create_random_log.py. *)
From Coq Require Import String NArith ZArith List Bool SpecFloat.
From Verif Require Import Base.PyBase Base.PyDate Base.PyVal Model.Attr Model.Log Model.StdExt.
Import ListNotations.
Local Open Scope Z_scope.

(** ** XFactory *)

(** create_attribute_boolean, _continuous, _discrete, _literal, _id: XFactory.py:76-137, 156-170
    (the constructors keep key, value and extension, e.g. XAttributeLiteral.py:16-18). *)
Definition create_boolean (k : pystr) (b : bool) : attr := mk_attr CBoolean k None (PBool b) [] [].
Definition create_continuous (k : pystr) (f : spec_float) : attr := mk_attr CContinuous k None (PFloat f) [] [].
Definition create_discrete (k : pystr) (z : Z) : attr := mk_attr CDiscrete k None (PInt z) [] [].
Definition create_literal (k s : pystr) : attr := mk_attr CLiteral k None (PStr s) [] [].
Definition create_id (k : pystr) (u : N) : attr := mk_attr CID k None (PXid u) [] [].
(** create_attribute_list, create_attribute_container: XFactory.py:172-197. *)
Definition create_list (k : pystr) : attr := mk_attr CList k None PNone [] [].
Definition create_container (k : pystr) : attr := mk_attr CContainer k None PNone [] [].

Section Random.
Context `{C : Clock}.
(** [platform.system() == 'Windows'] *)
Variable windows : bool.

(** The workaround: XAttributeTimestamp.py:123-132, in milliseconds.  (For an int [z] the
    quotient [z / 1000.0] is less than 86400 if and only if [z] is less than 86400000.) *)
Definition timestamp_ms (z : Z) : Z := if windows && (z <? 86400000) then 86400000 else z.

(** create_attribute_timestamp with a number: XFactory.py:139-153, XAttributeTimestamp.py:18-25. *)
Definition create_timestamp (k : pystr) (z : Z) : res attr :=
  let! d := from_ms (PInt (timestamp_ms z)) in Ok (mk_attr CTimestamp k None (PDate d) [] []).

(** ** Create_random_log.py *)
(** The ids drawn by XIDFactory.create_id. *)
Variable draw : nat -> N.

(** An attribute for an option of the list of lines 24-25: Create_random_log.py:24-41, with the number of ids drawn so
    far and afterwards. *)
Definition random_attr (n : nat) (o : pystr) : res (nat * attr) :=
  if str_eqb o (py "string") then Ok (n, create_literal o (py "UNKNOWN"))
  else if str_eqb o (py "date") then let! a := create_timestamp o 0 in Ok (n, a)
  else if str_eqb o (py "int") then Ok (n, create_discrete o 0)
  else if str_eqb o (py "float") then Ok (n, create_continuous o (S754_zero false))
  else if str_eqb o (py "boolean") then Ok (n, create_boolean o true)
  else if str_eqb o (py "id") then Ok (S n, create_id o (draw n))
  else if str_eqb o (py "list") then Ok (n, create_list o)
  else Ok (n, create_container o).

(** The loop over the attributes: Create_random_log.py:22-42. *)
Definition random_put (st : nat * sdict attr) (o : pystr) : res (nat * sdict attr) :=
  let! p := random_attr (fst st) o in Ok (fst p, sset o (snd p) (snd st)).
(** One event: Create_random_log.py:21-43; XFactory.create_event, XEvent.py:18-25. *)
Definition random_event (st : nat * list event) (opts : list pystr) : res (nat * list event) :=
  let! p := fold_res random_put opts (S (fst st), []) in
  Ok (fst p, snd st ++ [mk_event (draw (fst st)) (snd p)]).
(** One trace: Create_random_log.py:19-44. *)
Definition random_trace (st : nat * list trace) (choices : list (list pystr)) : res (nat * list trace) :=
  let! p := fold_res random_event choices (fst st, []) in
  Ok (fst p, snd st ++ [mk_trace [] (snd p)]).
(** The log, from what [random] chose: Create_random_log.py:17-44. *)
Definition random_log (choices : list (list (list pystr))) : res xlog :=
  let! p := fold_res random_trace choices (0%nat, []) in
  Ok (mk_log [] (snd p) [] [] [] [] []).
End Random.
