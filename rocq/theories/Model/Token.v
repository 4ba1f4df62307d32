(** Key lists as text, durations as text: /repo/src/opyenxes/utils/XTokenHelper.py,
    XTimer.py. *)
From Coq Require Import String NArith ZArith List Bool.
From Verif Require Import Base.PyBase.
Import ListNotations.

Definition nonempty (s : pystr) : bool := negb (str_eqb s []).

(** extract_tokens: XTokenHelper.py:4-6. *)
Definition extract_tokens (s : pystr) : list pystr :=
  filter nonempty (map strip (split (py "'") s)).

(** format_token: XTokenHelper.py:9-11. *)
Definition format_token (l : list pystr) : pystr :=
  let aux := map (fun e => if Nat.ltb 1 (List.length (split (py " ") e)) then py "'" ++ e ++ py "'" else e) l in
  join (py " ") (filter (fun e => nonempty (replace (py " ") [] e)) aux).

(** format_duration: XTimer.py:52-84, for an integer number of milliseconds. *)
Local Open Scope Z_scope.
Definition duration_part (unit : Z) (label : pystr) (sm : pystr * Z) : pystr * Z :=
  let '(sb, millis) := sm in
  if unit <? millis then (sb ++ print_Z (millis / unit) ++ label, millis mod unit) else (sb, millis).
Definition format_duration (millis : Z) : pystr :=
  let sm := duration_part 86400000 (py " days, ") ([], millis) in      (* lines 62-65 *)
  let sm := duration_part 3600000 (py " hours, ") sm in                (* lines 67-70 *)
  let sm := duration_part 60000 (py " minutes, ") sm in                (* lines 72-75 *)
  let '(sb, millis) := duration_part 1000 (py " seconds, ") sm in      (* lines 77-80 *)
  sb ++ print_Z millis ++ py " milliseconds".                          (* lines 82-84 *)
