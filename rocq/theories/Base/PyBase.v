(** Python results, text and dictionaries.

    These definitions model Python built-ins (CPython 3.11) used by the package.
    They are the vocabulary of every model file. *)
From Coq Require Import String Ascii NArith ZArith List Bool.
From Verif Require Import Base.Unicode.
Import ListNotations.

(** ** Results: exceptions are values *)

(** The exception classes that the modelled code can raise. *)
Inductive exn : Type :=
| TypeError
| ValueError
| KeyError
| IndexError
| AttributeError
| OverflowError
| UnboundLocalError
| UnicodeError          (* UnicodeEncodeError, UnicodeDecodeError *)
| ExpatError            (* also xml.sax.SAXParseException *)
| OSError               (* FileNotFoundError, FileExistsError, gzip.BadGzipFile *)
| PlainException.       (* a bare [raise Exception(...)] *)

Inductive res (A : Type) : Type :=
| Ok (a : A)
| Raise (e : exn).
Arguments Ok {A} a.
Arguments Raise {A} e.

Definition bind {A B} (r : res A) (k : A -> res B) : res B :=
  match r with
  | Ok a => k a
  | Raise e => Raise e
  end.

Notation "'let!' x ':=' r 'in' k" := (bind r (fun x => k))
  (at level 200, x pattern, r at level 100, k at level 200, right associativity).

(** Left-to-right evaluation of a loop body that may raise. *)
Fixpoint fold_res {A S} (f : S -> A -> res S) (l : list A) (s : S) : res S :=
  match l with
  | [] => Ok s
  | a :: t => match f s a with
              | Ok s' => fold_res f t s'
              | Raise e => Raise e
              end
  end.

Fixpoint map_res {A B} (f : A -> res B) (l : list A) : res (list B) :=
  match l with
  | [] => Ok []
  | a :: t => match f a with
              | Ok b => match map_res f t with
                        | Ok bs => Ok (b :: bs)
                        | Raise e => Raise e
                        end
              | Raise e => Raise e
              end
  end.

(** ** Text: [str] is a sequence of code points *)

Definition pystr : Type := list N.

(** A Python string literal (ASCII only). *)
Definition py (s : string) : pystr := map N_of_ascii (list_ascii_of_string s).

Fixpoint str_eqb (a b : pystr) : bool :=
  match a, b with
  | [], [] => true
  | x :: a', y :: b' => N.eqb x y && str_eqb a' b'
  | _, _ => false
  end.

(** [<], [>] on [str]: lexicographic by code point. *)
Fixpoint str_cmp (a b : pystr) : comparison :=
  match a, b with
  | [], [] => Eq
  | [], _ :: _ => Lt
  | _ :: _, [] => Gt
  | x :: a', y :: b' =>
      match N.compare x y with
      | Eq => str_cmp a' b'
      | c => c
      end
  end.

(** [str.isspace] of one code point. *)
Definition is_space (c : N) : bool :=
  ((9 <=? c) && (c <=? 13) || (28 <=? c) && (c <=? 32)
   || (c =? 133) || (c =? 160) || (c =? 5760)
   || (8192 <=? c) && (c <=? 8202) || (c =? 8232) || (c =? 8233)
   || (c =? 8239) || (c =? 8287) || (c =? 12288))%N.

Fixpoint dropwhile (p : N -> bool) (s : pystr) : pystr :=
  match s with
  | [] => []
  | c :: t => if p c then dropwhile p t else s
  end.

(** [s.strip(chars)] with a predicate for the characters to strip. *)
Definition strip_by (p : N -> bool) (s : pystr) : pystr :=
  rev (dropwhile p (rev (dropwhile p s))).

(** [s.strip()] *)
Definition strip (s : pystr) : pystr := strip_by is_space s.

(** [s.lower()] *)
Fixpoint lower_from (before s : pystr) : pystr :=
  match s with
  | [] => []
  | c :: t => low before c t ++ lower_from (c :: before) t
  end.
Definition lower (s : pystr) : pystr := lower_from [] s.

(** [s.upper()] on ASCII text (only applied to printed UUIDs). *)
Definition upper_ascii (c : N) : N :=
  (if (97 <=? c) && (c <=? 122) then c - 32 else c)%N.
Definition upper (s : pystr) : pystr := map upper_ascii s.

Fixpoint starts_with (p s : pystr) : bool :=
  match p, s with
  | [], _ => true
  | x :: p', y :: s' => N.eqb x y && starts_with p' s'
  | _ :: _, [] => false
  end.

(** [sub in s] *)
Fixpoint contains (sub s : pystr) : bool :=
  starts_with sub s ||
  match s with
  | [] => false
  | _ :: t => contains sub t
  end.

(** [c in s] for a one-character string. *)
Definition mem_char (c : N) (s : pystr) : bool := existsb (N.eqb c) s.

(** [s.split(sep)] for a non-empty [sep]; [skip] counts the characters of a
    separator that still have to be consumed. *)
Fixpoint split_aux (sep : pystr) (skip : nat) (acc s : pystr) : list pystr :=
  match s with
  | [] => [rev acc]
  | c :: t =>
      match skip with
      | S k => split_aux sep k acc t
      | O => if starts_with sep s
             then rev acc :: split_aux sep (length sep - 1) [] t
             else split_aux sep O (c :: acc) t
      end
  end.
Definition split (sep s : pystr) : list pystr := split_aux sep O [] s.

(** [sep.join(l)] *)
Fixpoint join (sep : pystr) (l : list pystr) : pystr :=
  match l with
  | [] => []
  | [a] => a
  | a :: t => a ++ sep ++ join sep t
  end.

(** [s.replace(old, new)] for a non-empty [old]. *)
Definition replace (old new s : pystr) : pystr := join new (split old s).

(** Text before / from the first occurrence of a character:
    [s[:s.index(c)]] and [s[s.index(c):]]. *)
Fixpoint before_char (c : N) (s : pystr) : pystr :=
  match s with
  | [] => []
  | x :: t => if N.eqb x c then [] else x :: before_char c t
  end.
Fixpoint from_char (c : N) (s : pystr) : pystr :=
  match s with
  | [] => []
  | x :: t => if N.eqb x c then s else from_char c t
  end.

(** ** Integers as text *)

(** Decimal digits, least significant first. *)
Fixpoint digits_rev (base : N) (fuel : nat) (n : N) : list N :=
  match fuel with
  | O => []
  | S f => (n mod base)%N ::
           (if (n / base =? 0)%N then [] else digits_rev base f (n / base)%N)
  end.

Definition digit_char (d : N) : N := (if d <? 10 then 48 + d else 87 + d)%N.

(** Digits of [n] in the given base, most significant first, as text. *)
Definition print_base (base n : N) : pystr :=
  map digit_char (rev (digits_rev base (S (N.size_nat n)) n)).

(** [str(n)] for a natural number. *)
Definition print_N (n : N) : pystr := print_base 10 n.

(** [str(z)] for an integer. *)
Definition print_Z (z : Z) : pystr :=
  match z with
  | Z0 => print_N 0
  | Zpos p => print_N (Npos p)
  | Zneg p => 45%N :: print_N (Npos p)
  end.

(** ["{:0w}".format(n)] for a natural number. *)
Definition pad0 (w : nat) (s : pystr) : pystr := repeat 48%N (w - length s) ++ s.

(** [int(s, base)] first maps Unicode decimals to ASCII digits and (non-ASCII)
    white space to blanks. *)
Definition int_norm (c : N) : N :=
  match decimal_value c with
  | Some d => (48 + d)%N
  | None => if (128 <=? c)%N && is_space c then 32%N else c
  end.

Definition int_space (c : N) : bool := ((9 <=? c) && (c <=? 13) || (c =? 32))%N.

Definition digit_val (base c : N) : option N :=
  let d := (if (48 <=? c) && (c <=? 57) then c - 48
            else if (97 <=? c) && (c <=? 102) then c - 87
            else if (65 <=? c) && (c <=? 70) then c - 55
            else 99)%N in
  if (d <? base)%N then Some d else None.

(** A non-empty digit sequence with single underscores between digits.
    [pend] is true right after an underscore. *)
Fixpoint int_digits (base : N) (acc : N) (pend : bool) (s : pystr) : option N :=
  match s with
  | [] => if pend then None else Some acc
  | c :: t =>
      if (c =? 95)%N
      then (if pend then None else int_digits base acc true t)
      else match digit_val base c with
           | Some d => int_digits base (acc * base + d)%N false t
           | None => None
           end
  end.

Definition int_body (base : N) (s : pystr) : option N :=
  match s with
  | [] => None
  | c :: t => match digit_val base c with
              | Some d => int_digits base d false t
              | None => None
              end
  end.

(** ["0x"] or ["0X"] in front of base 16 digits, with an optional underscore. *)
Definition int_prefix (base : N) (s : pystr) : pystr :=
  match s with
  | a :: b :: t =>
      if ((base =? 16) && (a =? 48) && ((b =? 120) || (b =? 88)))%N
      then match t with
           | c :: t' => if (c =? 95)%N then t' else t
           | [] => t
           end
      else s
  | _ => s
  end.

(** [int(s, base)]; [None] stands for ValueError.  Simplification: the limit on
    the number of digits of recent CPython versions is not modelled. *)
Definition py_int (base : N) (s : pystr) : option Z :=
  match strip_by int_space (map int_norm s) with
  | [] => None
  | c :: t =>
      if (c =? 45)%N then option_map (fun n => Z.opp (Z.of_N n)) (int_body base (int_prefix base t))
      else if (c =? 43)%N then option_map Z.of_N (int_body base (int_prefix base t))
      else option_map Z.of_N (int_body base (int_prefix base (c :: t)))
  end.

(** ** Dictionaries: insertion-ordered association lists *)

Section Dict.
  Context {K V : Type} (eqb : K -> K -> bool).

  (** [d.get(k)] *)
  Fixpoint dict_get (k : K) (d : list (K * V)) : option V :=
    match d with
    | [] => None
    | (k', v) :: t => if eqb k k' then Some v else dict_get k t
    end.

  (** [d[k] = v]: an existing key keeps its position, a new one goes last. *)
  Fixpoint dict_set (k : K) (v : V) (d : list (K * V)) : list (K * V) :=
    match d with
    | [] => [(k, v)]
    | (k', v') :: t => if eqb k k' then (k', v) :: t else (k', v') :: dict_set k v t
    end.

  (** [k in d] *)
  Definition dict_mem (k : K) (d : list (K * V)) : bool :=
    match dict_get k d with Some _ => true | None => false end.

  (** [del d[k]] *)
  Fixpoint dict_del (k : K) (d : list (K * V)) : list (K * V) :=
    match d with
    | [] => []
    | (k', v') :: t => if eqb k k' then t else (k', v') :: dict_del k t
    end.
End Dict.

Notation sdict V := (list (pystr * V)).
Definition sget {V} := @dict_get pystr V str_eqb.
Definition sset {V} := @dict_set pystr V str_eqb.
Definition smem {V} := @dict_mem pystr V str_eqb.
Definition sdel {V} := @dict_del pystr V str_eqb.

(** [s.add(x)] for a set kept as a duplicate-free list. *)
Definition set_add {A} (eqb : A -> A -> bool) (x : A) (s : list A) : list A :=
  if existsb (eqb x) s then s else s ++ [x].

(** A dictionary has at most one entry per key. *)
Definition dict_wf {K V} (d : list (K * V)) : Prop := NoDup (map fst d).

(** ** Lists *)

(** Replace the element at a position. *)
Fixpoint update {A} (i : nat) (f : A -> A) (l : list A) : list A :=
  match l, i with
  | [], _ => []
  | x :: t, O => f x :: t
  | x :: t, S j => x :: update j f t
  end.
