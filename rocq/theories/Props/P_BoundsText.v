(** Property C10: the text of time bounds. *)
From Coq Require Import String NArith ZArith List Bool.
From Verif Require Import Base.PyBase Base.PyDate Base.PyVal Model.Attr Model.TimeBounds Spec.BoundsText Proofs.BoundsTextFacts.
Import ListNotations.

(** Bounds have the same text iff they have the same start and the same end, to the microsecond
    and with the same offsets; bounds with nothing registered show "None -- None". *)
Theorem C10_text : forall b c, end_ok (tb_first b) -> end_ok (tb_last b) -> end_ok (tb_first c) -> end_ok (tb_last c) ->
  (tb_str b = tb_str c <-> same_end (tb_first b) (tb_first c) /\ same_end (tb_last b) (tb_last c)).
Proof. exact bounds_text. Qed.
Print Assumptions C10_text.

Example C10_text_ex :
  let d := mk_dt 2020 1 2 3 4 5 0 None in
  let e := mk_dt 2021 11 12 13 14 15 60 (Some (mk_tz 3600000000 None)) in
  end_ok (Some d) /\ end_ok (Some e)
  /\ tb_str (mk_tb (Some d) (Some e)) = py "2020-01-02 03:04:05 -- 2021-11-12 13:14:15.000060+01:00"
  /\ tb_str tb_empty = py "None -- None".
Proof. repeat split; vm_compute; reflexivity. Qed.
