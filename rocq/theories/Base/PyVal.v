(** Dynamically typed Python values held by attributes, with equality, ordering,
    truth and text conversion as in CPython 3.11 (library behaviour). *)
From Coq Require Import String NArith ZArith List Bool SpecFloat.
From Verif Require Import Base.PyBase Base.PyDate.
Import ListNotations.
Local Open Scope Z_scope.

(** Values an attribute can hold.  [PXid u] is an [XID] object wrapping the UUID
    with integer value [u]; [PTypeObj] is the built-in class [type] itself. *)
Inductive pyval : Type :=
| PNone
| PStr (s : pystr)
| PInt (z : Z)
| PFloat (f : spec_float)
| PBool (b : bool)
| PDate (d : datetime)
| PXid (u : N)
| PTypeObj.

(** Text conversion of floats ([repr] and [float(s)]) is a parameter of the model. *)
Class FloatIO : Type := {
  float_repr : spec_float -> pystr;
  float_of_str : pystr -> option spec_float
}.

(** ** Numbers: exact comparison of int, bool and float *)

Inductive num : Type :=
| NNan
| NInf (neg : bool)
| NFin (m e : Z).         (* m * 2^e *)

Definition num_of_float (f : spec_float) : num :=
  match f with
  | S754_zero _ => NFin 0 0
  | S754_infinity s => NInf s
  | S754_nan => NNan
  | S754_finite s m e => NFin (if s then Zneg m else Zpos m) e
  end.

Definition fin_cmp (m1 e1 m2 e2 : Z) : comparison :=
  let e := Z.min e1 e2 in
  (m1 * 2 ^ (e1 - e) ?= m2 * 2 ^ (e2 - e)).

(** [None]: unordered (NaN). *)
Definition num_cmp (a b : num) : option comparison :=
  match a, b with
  | NNan, _ | _, NNan => None
  | NInf true, NInf true | NInf false, NInf false => Some Eq
  | NInf true, _ => Some Lt
  | NInf false, _ => Some Gt
  | _, NInf true => Some Gt
  | _, NInf false => Some Lt
  | NFin m1 e1, NFin m2 e2 => Some (fin_cmp m1 e1 m2 e2)
  end.

Definition num_of (v : pyval) : option num :=
  match v with
  | PInt z => Some (NFin z 0)
  | PBool b => Some (NFin (if b then 1 else 0) 0)
  | PFloat f => Some (num_of_float f)
  | _ => None
  end.

(** [a == b]; never raises. *)
Definition py_eq (a b : pyval) : bool :=
  match num_of a, num_of b with
  | Some x, Some y => match num_cmp x y with Some Eq => true | _ => false end
  | Some _, None | None, Some _ => false
  | None, None =>
      match a, b with
      | PNone, PNone => true
      | PStr x, PStr y => str_eqb x y
      | PDate x, PDate y => dt_eqb x y
      | PXid x, PXid y => N.eqb x y
      | PTypeObj, PTypeObj => true
      | _, _ => false
      end
  end.

(** [a > b]; TypeError when the types have no common order. ([XID.__gt__] calls
    [get_uuid] on its argument: AttributeError.) *)
Definition py_gt (a b : pyval) : res bool :=
  match num_of a, num_of b with
  | Some x, Some y => Ok (match num_cmp x y with Some Gt => true | _ => false end)
  | Some _, None | None, Some _ =>
      match a, b with
      | PXid _, _ | _, PXid _ => Raise AttributeError
      | _, _ => Raise TypeError
      end
  | None, None =>
      match a, b with
      | PStr x, PStr y => Ok (match str_cmp x y with Gt => true | _ => false end)
      | PDate x, PDate y =>
          match dt_cmp x y with
          | Ok c => Ok (match c with Gt => true | _ => false end)
          | Raise e => Raise e
          end
      | PXid x, PXid y => Ok (N.ltb y x)
      | PXid _, _ | _, PXid _ => Raise AttributeError
      | _, _ => Raise TypeError
      end
  end.

(** [a >= b]; same exceptions as [a > b]. *)
Definition py_ge (a b : pyval) : res bool :=
  match num_of a, num_of b with
  | Some x, Some y => Ok (match num_cmp x y with Some Gt | Some Eq => true | _ => false end)
  | Some _, None | None, Some _ =>
      match a, b with
      | PXid _, _ | _, PXid _ => Raise AttributeError
      | _, _ => Raise TypeError
      end
  | None, None =>
      match a, b with
      | PStr x, PStr y => Ok (match str_cmp x y with Lt => false | _ => true end)
      | PDate x, PDate y =>
          match dt_cmp x y with
          | Ok c => Ok (match c with Lt => false | _ => true end)
          | Raise e => Raise e
          end
      | PXid x, PXid y => Ok (N.leb y x)
      | PXid _, _ | _, PXid _ => Raise AttributeError
      | _, _ => Raise TypeError
      end
  end.

(** Truth value. *)
Definition truthy (v : pyval) : bool :=
  match v with
  | PNone => false
  | PStr s => match s with [] => false | _ => true end
  | PInt z => negb (z =? 0)
  | PBool b => b
  | PFloat f => match f with S754_zero _ => false | _ => true end
  | PDate _ | PXid _ | PTypeObj => true
  end.

(** [float(z)] for an int: rounding to binary64, OverflowError if too large. *)
Definition float_of_int (z : Z) : res spec_float :=
  match binary_normalize 53 1024 z 0 false with
  | S754_infinity _ => Raise OverflowError
  | f => Ok f
  end.

(** [float(v)] *)
Definition py_float `{FloatIO} (v : pyval) : res spec_float :=
  match v with
  | PFloat f => Ok f
  | PInt z => float_of_int z
  | PBool b => float_of_int (if b then 1 else 0)
  | PStr s => match float_of_str s with Some f => Ok f | None => Raise ValueError end
  | _ => Raise TypeError
  end.

(** ** UUIDs: [str(uuid.UUID)] and [uuid.UUID(hex)] *)

Definition hex32 (u : N) : pystr := pad0 32 (print_base 16 u).

(** ["%s-%s-%s-%s-%s" % (hex[:8], hex[8:12], hex[12:16], hex[16:20], hex[20:])] *)
Definition uuid_str (u : N) : pystr :=
  let h := hex32 u in
  firstn 8 h ++ [45%N] ++ firstn 4 (skipn 8 h) ++ [45%N] ++ firstn 4 (skipn 12 h)
  ++ [45%N] ++ firstn 4 (skipn 16 h) ++ [45%N] ++ skipn 20 h.

Definition uuid_bound : N := (2 ^ 128)%N.

(** [uuid.UUID(s)]; [None] stands for ValueError. *)
Definition uuid_of_str (s : pystr) : option N :=
  let h := replace (py "uuid:") [] (replace (py "urn:") [] s) in
  let h := replace (py "-") [] (strip_by (fun c => (c =? 123) || (c =? 125))%N h) in
  if Nat.eqb (List.length h) 32 then
    match py_int 16 h with
    | Some z => if (0 <=? z) && (z <? 2 ^ 128) then Some (Z.to_N z) else None
    | None => None
    end
  else None.

(** [str(XID)]: /repo/src/opyenxes/id/XID.py:66-67. *)
Definition xid_str (u : N) : pystr := upper (uuid_str u).

(** ** [str(v)] *)

(** [str(datetime)] = [isoformat(' ')]. *)
Definition iso_offset (off : Z) : pystr :=
  let a := Z.abs off in
  let h := a / 3600000000 in
  let m := (a / minute_us) mod 60 in
  let s := (a / 1000000) mod 60 in
  let u := a mod 1000000 in
  (if off <? 0 then py "-" else py "+") ++ p2 h ++ py ":" ++ p2 m
  ++ (if (s =? 0) && (u =? 0) then []
      else py ":" ++ p2 s ++ (if u =? 0 then [] else py "." ++ pad0 6 (print_Z u))).

Definition dt_str (d : datetime) : pystr :=
  pad0 4 (print_Z (yr d)) ++ py "-" ++ p2 (mo d) ++ py "-" ++ p2 (dy d) ++ py " "
  ++ p2 (hh d) ++ py ":" ++ p2 (mi d) ++ py ":" ++ p2 (ss d)
  ++ (if us d =? 0 then [] else py "." ++ pad0 6 (print_Z (us d)))
  ++ match tz d with None => [] | Some z => iso_offset (tz_off z) end.

Definition py_str `{FloatIO} (v : pyval) : pystr :=
  match v with
  | PNone => py "None"
  | PStr s => s
  | PInt z => print_Z z
  | PFloat f => float_repr f
  | PBool b => if b then py "True" else py "False"
  | PDate d => dt_str d
  | PXid u => xid_str u
  | PTypeObj => py "<class 'type'>"
  end.
