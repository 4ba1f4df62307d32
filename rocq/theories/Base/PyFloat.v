(** Floor division and remainder of Python's floats.

    Library behaviour (CPython 3.11: Objects/floatobject.c, [_float_div_mod]), not code of the
    package.  The arithmetic of doubles is that of Coq's [SpecFloat]. *)
From Coq Require Import ZArith Bool SpecFloat.
Local Open Scope Z_scope.

Definition f_norm (m e : Z) : spec_float := binary_normalize 53 1024 m e false.
Definition f_add : spec_float -> spec_float -> spec_float := SFadd 53 1024.
Definition f_sub : spec_float -> spec_float -> spec_float := SFsub 53 1024.
Definition f_mul : spec_float -> spec_float -> spec_float := SFmul 53 1024.
Definition f_div : spec_float -> spec_float -> spec_float := SFdiv 53 1024.
Definition f_one : spec_float := f_norm 1 0.
Definition f_half : spec_float := f_norm 1 (-1).

Definition f_neg (x : spec_float) : bool :=                  (* x < 0 *)
  match x with S754_infinity s => s | S754_finite s _ _ => s | _ => false end.
Definition f_true (x : spec_float) : bool := match x with S754_zero _ => false | _ => true end.
Definition f_sign (x : spec_float) : bool :=                 (* the sign bit *)
  match x with S754_zero s | S754_infinity s | S754_finite s _ _ => s | S754_nan => false end.

(** [a / b] for ints that are not negative, [b] not zero: the double next to the quotient
    (Objects/longobject.c, [long_true_divide]); too large quotients are not covered. *)
Definition int_div (a b : Z) : spec_float :=
  match a, b with
  | Zpos p, Zpos q => f_div (S754_finite false p 0) (S754_finite false q 0)
  | _, _ => S754_zero false
  end.

(** C's [fmod]. *)
Definition fmod (x y : spec_float) : spec_float :=
  match x, y with
  | S754_nan, _ | _, S754_nan | S754_infinity _, _ | _, S754_zero _ => S754_nan
  | S754_zero _, _ | _, S754_infinity _ => x
  | S754_finite s m e, S754_finite _ n f =>
      let g := Z.min e f in
      let r := (Zpos m * 2 ^ (e - g)) mod (Zpos n * 2 ^ (f - g)) in
      if r =? 0 then S754_zero s else if s then SFopp (f_norm r g) else f_norm r g
  end.

(** C's [floor]. *)
Definition f_floor (x : spec_float) : spec_float :=
  match x with
  | S754_finite s m e =>
      if 0 <=? e then x
      else let q := (if s then Zneg m else Zpos m) / 2 ^ (- e) in
           if q =? 0 then S754_zero false else f_norm q 0
  | _ => x
  end.

(** [(v // w, v % w)] for [w] that is not zero. *)
Definition f_divmod (v w : spec_float) : spec_float * spec_float :=
  let r := fmod v w in
  let d := f_div (f_sub v r) w in
  let '(d, r) := if f_true r then
                   if Bool.eqb (f_neg w) (f_neg r) then (d, r) else (f_sub d f_one, f_add r w)
                 else (d, S754_zero (f_sign w)) in
  let q := if f_true d then
             let q := f_floor d in
             if SFltb f_half (f_sub d q) then f_add q f_one else q
           else S754_zero (f_sign (f_div v w)) in
  (q, r).
