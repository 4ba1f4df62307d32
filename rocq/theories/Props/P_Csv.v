(** C100: lines, cells and titles of CSV files. *)
From Coq Require Import String NArith ZArith List Bool.
From Verif Require Import Base.PyBase Base.PyDate Base.PyVal Model.Attr Model.Log Model.Examples Spec.Transform Spec.Csv
  Proofs.CsvFacts.
Import ListNotations.

(** The converter works on the lines of the file, with their line ends ... *)
Theorem C100_lines : forall text ls, file_lines text = ls <-> lines_of text ls.
Proof. exact lines. Qed.
Print Assumptions C100_lines.
Example C100_lines_ex : lines_of (py "a;b" ++ [10%N; 10%N] ++ py "c") [py "a;b" ++ [10%N]; [10%N]; py "c"].
Proof. apply C100_lines. reflexivity. Qed.

(** ... and on their cells. *)
Theorem C100_cells : forall line cs, split (py ";") line = cs <-> cells_of line cs.
Proof. exact cells. Qed.
Print Assumptions C100_cells.
Example C100_cells_ex : cells_of (py "1;;a b;" ++ [10%N]) [py "1"; []; py "a b"; [10%N]].
Proof. apply C100_cells. reflexivity. Qed.

(** A title with a year that is made of units of time and other text between them becomes the
    date format one expects; line ends behind it are dropped. *)
Theorem C100_formats : forall before l k, other_text before -> separated l -> In Year (map fst l) ->
  column_type (title_of in_title before l ++ repeat 10%N k) = title_of in_format before l.
Proof. exact formats. Qed.
Print Assumptions C100_formats.
Example C100_formats_ex :
  let l := [(Day, py "-"); (Month, py "-"); (Year, py ":"); (Hour, py "."); (Minute, [])] in
  separated l /\ In Year (map fst l) /\ title_of in_title [] l = py "dd-MM-yyyy:HH.mm"
  /\ title_of in_format [] l = py "%d-%m-%Y:%H.%M".
Proof.
  cbn -[py]. repeat split; try discriminate; try (repeat constructor; cbn; intuition discriminate).
Qed.
(** Without text between them, months and minutes spoil each other. *)
Theorem C100_formats_refuted : exists l, In Year (map fst l) /\ Forall (fun p => other_text (snd p)) l
  /\ column_type (title_of in_title [] l) <> title_of in_format [] l.
Proof.
  exists [(Year, []); (Month, []); (Minute, [])]. split; [now left|]. split; [repeat constructor|].
  vm_compute. discriminate.
Qed.
Print Assumptions C100_formats_refuted.

(** The line end belongs to the last cell: a text in the last column keeps it, on all lines but
    possibly the last of the file. *)
Theorem C100_line_end : forall strp draw (types : list pystr) n (w : pystr) cells title e,
  cells_of (w ++ [10%N]) cells -> List.length cells = List.length types -> (2 < List.length types)%nat ->
  last types [] = title -> title = py "Activity" \/ title = py "Resource" ->
  convert_line strp draw types n cells = Ok e ->
  exists s, sget title (ev_attrs e) = Some (mk_attr CLiteral title None (PStr (s ++ [10%N])) [] []).
Proof. exact line_end. Qed.
Print Assumptions C100_line_end.
Example C100_line_end_ex : exists e,
  convert_line (fun _ _ => None) N.of_nat [py "Case"; py "Event"; py "Cost"; py "Resource"] 0
    [py "1"; py "7"; py "50"; py "Pete" ++ [10%N]] = Ok e
  /\ cells_of (py "1;7;50;Pete" ++ [10%N]) [py "1"; py "7"; py "50"; py "Pete" ++ [10%N]].
Proof. eexists. split; [reflexivity|]. apply C100_cells. reflexivity. Qed.
(** So the value of a text is not always what stands between the semicolons and line ends. *)
Theorem C100_same_value_refuted : exists text case ev t e f,
  lines_of text [py "Case;Event;Activity" ++ [10%N]; join (py ";") [case; ev; t] ++ [10%N]; py "2;2;b"]
  /\ cells_of (join (py ";") [case; ev; t]) [case; ev; t]
  /\ map_res (fun '(i, r) => convert_line (fun _ _ => None) N.of_nat [py "Case"; py "Event"; py "Activity"] i (split (py ";") r))
             (combine [0; 1] (tl (file_lines text))) = Ok [e; f]
  /\ forall a, sget (py "Activity") (ev_attrs e) = Some a -> a_val a <> PStr t.
Proof.
  exists (py "Case;Event;Activity" ++ [10%N] ++ py "1;1;a" ++ [10%N] ++ py "2;2;b"), (py "1"), (py "1"), (py "a").
  do 2 eexists. split; [apply C100_lines; reflexivity|]. split; [apply C100_cells; reflexivity|].
  split; [reflexivity|]. intros a [= <-]. discriminate.
Qed.
Print Assumptions C100_same_value_refuted.
