(** Property C110: registries of parsers and factories that a program changes. *)
From Coq Require Import String NArith List Bool Arith Permutation Lia.
From Verif Require Import Base.PyBase Base.PyVal Base.Codec Model.Registry Model.FileNames Model.Files Model.Registered
  Spec.Files Spec.Registered Proofs.RegisteredFacts.
Import ListNotations.

(** C110.  Whatever is registered, the library's four parsers stay available; an object is
    listed once, and nothing is listed that was not registered.  The defaults are the ones set
    last. *)
Theorem C110_available : forall h,
  NoDup (reg_available (l_parsers (lib_run h)))
  /\ (forall i, In i (reg_available (l_parsers (lib_run h))) <-> i < 4 \/ added h i)
  /\ reg_default (l_parsers (lib_run h)) = Some (parser_set h)
  /\ reg_default (l_factories (lib_run h)) = Some (factory_set h).
Proof. exact available_spec. Qed.
Print Assumptions C110_available.

(** C110.  A parser of the library builds its logs with the factory that is the default when
    [parse] is called, whatever factory it was given and whenever it was made.  It leaves the
    file closed, also when it fails. *)
Theorem C110_factory :
  forall A (read : parser -> nat -> bytes -> res A) custom_parse h d i p name b,
  nth_error (made h) i = Some (Std p) -> sget name d = Some b ->
  obj_parse read custom_parse (lib_run h) d i (mk_fobj name b false) =
    (mk_fobj name b true, read p (factory_set h) b).
Proof. exact @std_object. Qed.
Print Assumptions C110_factory.

(** C110.  So the factory given to a parser is not the one it uses. *)
Theorem C110_own_factory_refuted :
  exists A (read : parser -> nat -> bytes -> res A) custom_parse h d i p g name b,
  In (MakeParser (Std p) (Some g)) h
  /\ nth_error (l_objs (lib_run h)) i = Some (mk_pobj (Std p) (Some g))
  /\ sget name d = Some b
  /\ snd (obj_parse read custom_parse (lib_run h) d i (mk_fobj name b false)) <> read p g b.
Proof.
  exists nat, (fun _ f _ => Ok f), (fun _ f => (f, Raise ValueError)),
    [MakeParser (Std Xes) (Some 7)], [(py "a.xes", [])], 4, Xes, 7, (py "a.xes"), [].
  split; [now left|]. split; [reflexivity|]. split; [reflexivity|discriminate].
Qed.
Print Assumptions C110_own_factory_refuted.

(** C110.  As long as none of the program's own parsers takes the file, the universal parser
    gives what the format of the file's ending gives, in whatever order the set is walked and
    however many more parsers of the library's classes were registered ... *)
Theorem C110_standard :
  forall A (read : parser -> nat -> bytes -> res A) custom_accepts custom_parse h d order p e name b,
  Permutation order (reg_available (l_parsers (lib_run h))) ->
  others custom_accepts h name -> In e (endings p) -> named e name -> sget name d = Some b ->
  search read custom_accepts custom_parse (lib_run h) d order (mk_fobj name b false) =
    (mk_fobj name b true,
     match read p (factory_set h) b with Ok a => Ok a | Raise _ => Raise PlainException end).
Proof. exact @standard_search. Qed.
Print Assumptions C110_standard.

(** ... which is what C70 and C71 have for the four parsers without file objects ... *)
Theorem C110_load :
  forall (FIO : FloatIO) (GZ : Gzip) mgr urlparse draw loc custom_accepts custom_parse h d order path b,
  Permutation order (reg_available (l_parsers (lib_run h))) -> others custom_accepts h path ->
  sget path d = Some b ->
  snd (search (fun p _ => parse_file mgr urlparse draw loc p) custom_accepts custom_parse (lib_run h) d order
         (mk_fobj path b false))
  = load mgr urlparse draw loc [Mxml; MxmlGzip; Xes; XesGzip] path d.
Proof. exact search_load. Qed.
Print Assumptions C110_load.

(** ... and a file with another ending is refused and not touched. *)
Theorem C110_refused :
  forall A (read : parser -> nat -> bytes -> res A) custom_accepts custom_parse h d order f,
  others custom_accepts h (fo_name f) -> (forall p e, In e (endings p) -> ~ named e (fo_name f)) ->
  search read custom_accepts custom_parse (lib_run h) d order f = (f, Raise PlainException).
Proof. exact @no_parser. Qed.
Print Assumptions C110_refused.

(** C110.  With any parsers at all, a result is that of the first parser which takes the file
    and succeeds; those before it that take the file failed one after the other, each with the
    file as the one before left it. *)
Theorem C110_first :
  forall A (read : parser -> nat -> bytes -> res A) custom_accepts custom_parse l d order f g a,
  search read custom_accepts custom_parse l d order f = (g, Ok a) <->
  exists before i after f', order = before ++ i :: after
    /\ all_fail (obj_accepts custom_accepts l) (obj_parse read custom_parse l d) before f f'
    /\ obj_accepts custom_accepts l i (fo_name f') = true
    /\ obj_parse read custom_parse l d i f' = (g, Ok a).
Proof. exact @search_ok. Qed.
Print Assumptions C110_first.

(** C110.  The only error is that no parser was found, and it means that all that take the file
    failed. *)
Theorem C110_error :
  forall A (read : parser -> nat -> bytes -> res A) custom_accepts custom_parse l d order f g e,
  search read custom_accepts custom_parse l d order f = (g, Raise e) <->
  e = PlainException
  /\ all_fail (obj_accepts custom_accepts l) (obj_parse read custom_parse l d) order f g.
Proof. exact @search_raise. Qed.
Print Assumptions C110_error.

(** C110.  A parser of the program's own for one of the library's endings makes the outcome
    depend on the order of the set: if it comes first and fails, it leaves the file closed, and
    the parser of the library, which could read the file, fails too. *)
Theorem C110_order_refuted :
  exists A (read : parser -> nat -> bytes -> res A) custom_accepts custom_parse h d order1 order2 name b,
  Permutation order1 (reg_available (l_parsers (lib_run h)))
  /\ Permutation order2 (reg_available (l_parsers (lib_run h)))
  /\ sget name d = Some b
  /\ snd (search read custom_accepts custom_parse (lib_run h) d order1 (mk_fobj name b false)) = read Xes 0 b
  /\ (exists a, read Xes 0 b = Ok a)
  /\ snd (search read custom_accepts custom_parse (lib_run h) d order2 (mk_fobj name b false))
     = Raise PlainException.
Proof.
  exists nat, (fun _ f _ => Ok f), (fun _ name => ends_with_ignore_case name (py ".xes")),
    (fun _ f => (close f, Raise ValueError)),
    [MakeParser (Custom 0) None; AddParser 4], [(py "a.xes", [])], [0; 1; 2; 3; 4], [4; 0; 1; 2; 3],
    (py "a.xes"), [].
  split; [apply Permutation_refl|]. split; [apply (Permutation_cons_append [0; 1; 2; 3] 4)|].
  repeat split; try reflexivity. now exists 0.
Qed.
Print Assumptions C110_order_refuted.

(** A second parser for plain XES with its own factory, one for another ending, and a new
    default factory. *)
Example C110_example :
  let h := [MakeParser (Std Xes) (Some 7); AddParser 4; MakeParser (Custom 0) None; SetParser 5; SetFactory 9] in
  let read := fun p f (b : bytes) => match b with [] => Raise ExpatError | _ => Ok (p, f, b) end in
  let accepts := fun (_ : nat) name => ends_with_ignore_case name (py ".csv") in
  let parse := fun (_ : nat) f => (f, Raise ValueError) in
  reg_available (l_parsers (lib_run h)) = [0; 1; 2; 3; 4; 5]
  /\ reg_default (l_parsers (lib_run h)) = Some 5
  /\ others accepts h (py "a.xes")
  /\ snd (search read accepts parse (lib_run h) [(py "a.xes", [1%N])] [5; 4; 3; 2; 1; 0]
            (mk_fobj (py "a.xes") [1%N] false)) = Ok (Xes, 9, [1%N])
  /\ search read accepts parse (lib_run h) [(py "a.xes", [])] [5; 4; 3; 2; 1; 0]
       (mk_fobj (py "a.xes") [] false) = (mk_fobj (py "a.xes") [] true, Raise PlainException)
  /\ search read accepts parse (lib_run h) [(py "a.txt", [])] [5; 4; 3; 2; 1; 0]
       (mk_fobj (py "a.txt") [] false) = (mk_fobj (py "a.txt") [] false, Raise PlainException).
Proof. repeat split; reflexivity. Qed.
