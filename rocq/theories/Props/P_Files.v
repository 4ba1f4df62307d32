(** Properties C41, C42: which parser takes which file. *)
From Coq Require Import String NArith List Bool Permutation.
From Verif Require Import Base.PyBase Model.FileNames Spec.Files Proofs.FileFacts.
Import ListNotations.

(** C41.  A parser takes a file exactly when its name is a non-empty stem followed by one of
    the parser's endings. *)
Theorem C41_can_parse : forall p file,
  can_parse p file = true <-> exists e, In e (endings p) /\ named e file.
Proof. exact can_parse_spec. Qed.
Print Assumptions C41_can_parse.

(** C41.  The same for any suffix. *)
Theorem C41_ends_with : forall name suffix,
  ends_with_ignore_case name suffix = true <-> named suffix name.
Proof. exact ends_with_spec. Qed.
Print Assumptions C41_ends_with.

Example C41_example :
  can_parse Mxml (py "log.xml") = true /\ can_parse Xes (py "a.xes.xes") = true
  /\ can_parse Xes (py "a.xes.gz") = false /\ can_parse Xes (py ".xes") = false
  /\ can_parse Xes (py "a.XES") = false.
Proof. repeat split; reflexivity. Qed.

(** C41.  The documentation says that case is ignored; it is not. *)
Theorem C41_ignores_case_refuted : exists name suffix,
  named_any_case suffix name /\ ends_with_ignore_case name suffix = false.
Proof.
  exists (py "a.XES"), (py ".xes"). split; [|reflexivity].
  exists (py "a"), (py ".XES"). repeat split. discriminate.
Qed.
Print Assumptions C41_ignores_case_refuted.

(** C42.  No two of the parsers take the same file. *)
Theorem C42_one_parser : forall p q file, can_parse p file = true -> can_parse q file = true -> p = q.
Proof. exact one_parser. Qed.
Print Assumptions C42_one_parser.

(** C42.  The universal parser takes what one of the registered parsers takes. *)
Theorem C42_can_parse : forall ps file, universal_can_parse ps file = true <->
  exists p e, In p ps /\ In e (endings p) /\ named e file.
Proof.
  intros ps file. unfold universal_can_parse. rewrite existsb_exists. split.
  - intros (p & I & H). apply can_parse_spec in H. destruct H as (e & J & N). now exists p, e.
  - intros (p & e & I & J & N). exists p. split; [exact I|]. apply can_parse_spec. now exists e.
Qed.
Print Assumptions C42_can_parse.

(** C42.  The order of the search does not matter. *)
Theorem C42_can_parse_order : forall ps qs file, Permutation ps qs ->
  universal_can_parse ps file = universal_can_parse qs file.
Proof. exact universal_can_parse_perm. Qed.
Print Assumptions C42_can_parse_order.

Theorem C42_parse_order : forall A (run : parser -> res A) ps qs file, NoDup ps -> Permutation ps qs ->
  universal_parse run ps file = universal_parse run qs file.
Proof. exact @universal_parse_perm. Qed.
Print Assumptions C42_parse_order.

(** C42.  A parser that takes the file decides the outcome; its failure becomes the message
    that there is no parser. *)
Theorem C42_parse_result : forall A (run : parser -> res A) p ps file,
  NoDup ps -> In p ps -> can_parse p file = true ->
  universal_parse run ps file = match run p with Ok a => Ok a | Raise _ => Raise PlainException end.
Proof. exact @universal_one. Qed.
Print Assumptions C42_parse_result.

(** C42.  A file no parser takes is refused. *)
Theorem C42_parse_refused : forall A (run : parser -> res A) ps file,
  (forall p, In p ps -> can_parse p file = false) -> universal_parse run ps file = Raise PlainException.
Proof. exact @universal_none. Qed.
Print Assumptions C42_parse_refused.

(** C42.  A file named after a serializer's suffix is taken by the parser of that format ... *)
Theorem C42_written_readable : forall p suf stem,
  In suf (suffices p) -> stem <> [] -> suf <> py "xez" -> can_parse p (stem ++ py "." ++ suf) = true.
Proof. exact written_readable. Qed.
Print Assumptions C42_written_readable.

(** ... so every format has such a suffix ... *)
Theorem C42_every_format : forall p stem, stem <> [] ->
  exists suf, In suf (suffices p) /\ can_parse p (stem ++ py "." ++ suf) = true.
Proof. exact every_format. Qed.
Print Assumptions C42_every_format.

(** ... except that files named .xez are taken by none. *)
Theorem C42_xez_refused : forall p stem, can_parse p (stem ++ py ".xez") = false.
Proof. exact xez_refused. Qed.
Print Assumptions C42_xez_refused.

Example C42_example :
  let run p := match p with Xes => Ok 1 | XesGzip => Ok 2 | Mxml => Raise ValueError | MxmlGzip => Ok 4 end in
  let std := [Mxml; MxmlGzip; Xes; XesGzip] in
  NoDup std /\ universal_parse run std (py "a.xes.gz") = Ok 2
  /\ universal_parse run (rev std) (py "a.xes.gz") = Ok 2
  /\ universal_parse run std (py "a.xml") = Raise PlainException
  /\ In (py "xez") (suffices XesGzip) /\ universal_parse run std (py "a.xez") = Raise PlainException.
Proof. repeat split; try reflexivity; [repeat constructor; simpl; intuition discriminate|simpl; auto]. Qed.
