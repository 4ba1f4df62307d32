(** Lines, cells and titles of a CSV file. *)
From Coq Require Import String NArith List Bool.
From Verif Require Import Base.PyBase.
Import ListNotations.

(** The lines of a text, with their line ends: a line has no line end but at its end, where only
    the last line may lack it. *)
Definition one_line (l : pystr) : Prop := exists w, ~ In 10%N w /\ l = w ++ [10%N].
Inductive lines_of : pystr -> list pystr -> Prop :=
| lines_none : lines_of [] []
| lines_last w : w <> [] -> ~ In 10%N w -> lines_of w [w]
| lines_more l s ls : one_line l -> lines_of s ls -> lines_of (l ++ s) (l :: ls).

(** The cells of a line: texts without semicolons, which give the line with semicolons between. *)
Definition cells_of (line : pystr) (cells : list pystr) : Prop :=
  cells <> [] /\ Forall (fun c => ~ In 59%N c) cells /\ join (py ";") cells = line.

(** A date format as a title: day, month, year, hour and minute, each followed by other text. *)
Inductive unit_of_time : Type := Day | Month | Year | Hour | Minute.
Definition in_title (u : unit_of_time) : pystr :=
  match u with Day => py "dd" | Month => py "MM" | Year => py "yyyy" | Hour => py "HH" | Minute => py "mm" end.
Definition in_format (u : unit_of_time) : pystr :=
  match u with Day => py "%d" | Month => py "%m" | Year => py "%Y" | Hour => py "%H" | Minute => py "%M" end.
Definition title_of (write : unit_of_time -> pystr) (before : pystr) (l : list (unit_of_time * pystr)) : pystr :=
  before ++ flat_map (fun p => write (fst p) ++ snd p) l.
(** Text between the units: without their letters and line ends. *)
Definition other_text (s : pystr) : Prop := Forall (fun c => ~ In c (py "dMyHm" ++ [10%N])) s.
(** Only the last unit may be followed by nothing. *)
Fixpoint separated (l : list (unit_of_time * pystr)) : Prop :=
  match l with
  | [] => True
  | [(_, s)] => other_text s
  | (_, s) :: t => s <> [] /\ other_text s /\ separated t
  end.
