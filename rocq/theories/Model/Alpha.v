(** The alpha algorithm of the examples: /repo/example/AlphaAlgorithm.py. *)
From Coq Require Import String NArith ZArith List Bool Permutation.
From Verif Require Import Base.PyBase.
Import ListNotations.

(** Iterating over a Python [set] visits its elements in some order.  A set is kept as
    the duplicate-free list of its elements in order of insertion, and [iter] turns it
    into the order of iteration; nothing else is assumed about that order. *)
Class SetOrder : Type := {
  iter : forall {A : Type}, list A -> list A;
  iter_perm : forall (A : Type) (l : list A), Permutation (iter l) l
}.

(** [set(l)], [s.update(l)] on the empty set. *)
Definition set_of {A} (eqb : A -> A -> bool) (l : list A) : list A :=
  fold_left (fun s x => set_add eqb x s) l [].

(** [x in s] *)
Definition mem {A} (eqb : A -> A -> bool) (x : A) (s : list A) : bool := existsb (eqb x) s.

(** [s.discard(x)] *)
Definition discard {A} (eqb : A -> A -> bool) (x : A) (s : list A) : list A :=
  filter (fun y => negb (eqb x y)) s.

(** Equality of tuples of strings, and of pairs. *)
Fixpoint tuple_eqb (a b : list pystr) : bool :=
  match a, b with
  | [], [] => true
  | x :: a', y :: b' => str_eqb x y && tuple_eqb a' b'
  | _, _ => false
  end.
Definition pair_eqb (p q : pystr * pystr) : bool :=
  str_eqb (fst p) (fst q) && str_eqb (snd p) (snd q).
Definition tuples_eqb (p q : list pystr * list pystr) : bool :=
  tuple_eqb (fst p) (fst q) && tuple_eqb (snd p) (snd q).

(** [pair[::-1]] *)
Definition swap (p : pystr * pystr) : pystr * pystr := (snd p, fst p).

Section Alpha.
Context `{SO : SetOrder}.

(** ** Footprint *)

(** The pairs added for one trace: AlphaAlgorithm.py:40-41. *)
Fixpoint neighbours (t : list pystr) : list (pystr * pystr) :=
  match t with
  | a :: ((b :: _) as r) => (a, b) :: neighbours r
  | _ => []
  end.

(** direct_succession: AlphaAlgorithm.py:38-43. *)
Definition fp_direct (log : list (list pystr)) : list (pystr * pystr) :=
  iter (set_of pair_eqb (flat_map neighbours log)).

(** causal: AlphaAlgorithm.py:45-50. *)
Definition fp_causal (ds : list (pystr * pystr)) : list (pystr * pystr) :=
  iter (set_of pair_eqb (filter (fun p => negb (mem pair_eqb (swap p) ds)) ds)).

(** choice and parallel: AlphaAlgorithm.py:52-63; [itertools.product] of the set of all
    events with itself. *)
Definition fp_choice (all : list pystr) (ds : list (pystr * pystr)) : list (pystr * pystr) :=
  iter (set_of pair_eqb
    (filter (fun p => negb (mem pair_eqb p ds) && negb (mem pair_eqb (swap p) ds))
            (list_prod (iter all) (iter all)))).
Definition fp_parallel (all : list pystr) (ds : list (pystr * pystr)) : list (pystr * pystr) :=
  iter (set_of pair_eqb
    (filter (fun p => mem pair_eqb p ds && mem pair_eqb (swap p) ds)
            (list_prod (iter all) (iter all)))).

(** Footprint.__init__ and _generate_footprint: AlphaAlgorithm.py:26-63. *)
Record footprint : Type := mk_fp
  { f_direct : list (pystr * pystr); f_causal : list (pystr * pystr);
    f_choice : list (pystr * pystr); f_parallel : list (pystr * pystr) }.
Definition footprint_of (all : list pystr) (log : list (list pystr)) : footprint :=
  let ds := fp_direct log in
  mk_fp ds (fp_causal ds) (fp_choice all ds) (fp_parallel all ds).

(** ** Events *)

(** AlphaAlgorithm._extract_events: AlphaAlgorithm.py:147-151.  [trace[0]] of an empty
    trace raises IndexError.  The result: starting, ending and all events. *)
Definition extract_events (log : list (list pystr)) :
  res (list pystr * list pystr * list pystr) :=
  fold_res (fun '(s, e, a) t =>
    match t with
    | [] => Raise IndexError
    | x :: _ => Ok (set_add str_eqb x s, set_add str_eqb (last t x) e,
                    fold_left (fun a y => set_add str_eqb y a) t a)
    end) log ([], [], []).

(** ** Pairs of sets *)

(** [itertools.combinations(l, n)]: the subsequences of length [n], those with the
    first element first. *)
Fixpoint combinations {A} (n : nat) (l : list A) : list (list A) :=
  match n, l with
  | O, _ => [[]]
  | S _, [] => []
  | S k, x :: t => map (cons x) (combinations k t) ++ combinations n t
  end.

(** _check_one_set: AlphaAlgorithm.py:106-111. *)
Definition check_one_set (one : list pystr) (rel : list (pystr * pystr)) : bool :=
  forallb (fun p => mem pair_eqb p rel) (list_prod one one).

(** _check_two_set: AlphaAlgorithm.py:113-118. *)
Definition check_two_set (a b : list pystr) (rel : list (pystr * pystr)) : bool :=
  forallb (fun p => mem pair_eqb p rel) (list_prod a b).

(** _build_pairs: AlphaAlgorithm.py:120-133. *)
Definition build_pairs (all : list pystr) (fp : footprint) :
  list (list pystr * list pystr) :=
  let sets := iter (set_of tuple_eqb
    (flat_map (fun i => combinations i (iter all)) (seq 1 (List.length all - 1)))) in
  set_of tuples_eqb
    (flat_map (fun a =>
       if check_one_set a (f_choice fp)
       then map (fun b => (a, b))
              (filter (fun b => check_one_set b (f_choice fp)
                                && check_two_set a b (f_causal fp)) sets)
       else []) sets).

(** [set(a).issubset(b)] *)
Definition issubset (a b : list pystr) : bool := forallb (fun x => mem str_eqb x b) a.

(** _generate_places: AlphaAlgorithm.py:135-145. *)
Definition generate_places (pairs : list (list pystr * list pystr)) :
  list (list pystr * list pystr) :=
  fold_left (fun yl p =>
    fold_left (fun yl q =>
      if negb (tuples_eqb p q) && issubset (fst p) (fst q) && issubset (snd p) (snd q)
      then discard tuples_eqb p yl else yl) (iter pairs) yl) (iter pairs) pairs.

(** ** The text of the net *)

(** Place: AlphaAlgorithm.py:66-77; [None] for the missing side. *)
Record place : Type := mk_place
  { pl_start : option (list pystr); pl_end : option (list pystr) }.

(** ["place_{}".format(n)] *)
Definition place_name (n : nat) : pystr := py "place_" ++ print_N (N.of_nat n).

(** The line of a place: AlphaAlgorithm.py:164-170.  Only the first place has no start,
    so the counter [aux] gives 1. *)
Definition place_line (n : nat) (p : place) : pystr :=
  let text := py "Place """ ++ place_name n ++ py """;" in
  match pl_start p with
  | None => replace (py ";") (py " init 1;") text
  | Some _ => text
  end.

(** [s and e in s] *)
Definition in_side (e : pystr) (s : option (list pystr)) : bool :=
  match s with
  | Some l => negb (Nat.eqb (List.length l) 0) && mem str_eqb e l
  | None => false
  end.

(** The lists [start] and [end] of an event: AlphaAlgorithm.py:173-180.  An event on both
    sides of a place is put into the first list only. *)
Definition arcs (e : pystr) (places : list (nat * place)) : list nat * list nat :=
  fold_left (fun '(s, t) '(n, p) =>
    if in_side e (pl_end p) then (s ++ [n], t)
    else if in_side e (pl_start p) then (s, t ++ [n])
    else (s, t)) places ([], []).

(** ["".format]: the quoted names joined with blanks, AlphaAlgorithm.py:182-188. *)
Definition quoted (l : list nat) : pystr :=
  join (py " ") (map (fun n => py """" ++ place_name n ++ py """") l).

(** The line of a transition: AlphaAlgorithm.py:182-189. *)
Definition trans_line (n : nat) (e : pystr) (places : list (nat * place)) : pystr :=
  let '(s, t) := arcs e places in
  py "trans ""t_" ++ print_N (N.of_nat n) ++ py """~""" ++ e ++ py "+complete"" in "
  ++ quoted s ++ py " out " ++ quoted t ++ py " ;".

Fixpoint number {A} (n : nat) (l : list A) : list (nat * A) :=
  match l with
  | [] => []
  | x :: t => (n, x) :: number (S n) t
  end.

(** The places in the order of their numbers: AlphaAlgorithm.py:157-162. *)
Definition all_places (starting ending : list pystr) (pl : list (list pystr * list pystr)) :
  list place :=
  mk_place None (Some starting) :: mk_place (Some ending) None
  :: map (fun p => mk_place (Some (fst p)) (Some (snd p))) (iter pl).

(** _generate_text: AlphaAlgorithm.py:153-191.  The generator of names is advanced once
    between places and transitions. *)
Definition generate_text (starting ending all : list pystr)
  (pl : list (list pystr * list pystr)) : pystr :=
  let places := number 0 (all_places starting ending pl) in
  join [10%N]
    (map (fun '(n, p) => place_line n p) places
     ++ map (fun '(n, e) => trans_line n e places)
            (number (S (List.length places)) (iter all))).

(** AlphaAlgorithm.__init__: AlphaAlgorithm.py:86-104. *)
Record alpha : Type := mk_alpha
  { al_starting : list pystr; al_ending : list pystr; al_all : list pystr;
    al_footprint : footprint; al_pairs : list (list pystr * list pystr);
    al_places : list (list pystr * list pystr); al_text : pystr }.

Definition alpha_of (log : list (list pystr)) : res alpha :=
  let! x := extract_events log in
  let '(s, e, a) := x in
  let fp := footprint_of a log in
  let pairs := build_pairs a fp in
  let places := generate_places pairs in
  Ok (mk_alpha s e a fp pairs places (generate_text s e a places)).
End Alpha.
