(** Time stamp boundaries: /repo/src/opyenxes/info/XTimeBounds.py. *)
From Coq Require Import String NArith ZArith List Bool.
From Verif Require Import Base.PyBase Base.PyDate Base.PyVal Model.Attr.
From Verif Require Model.StdExt.
Import ListNotations.

(** XTimeBounds.__init__: XTimeBounds.py:11-13.  The getters of lines 15-29 are the fields. *)
Record tbounds : Type := mk_tb { tb_first : option datetime; tb_last : option datetime }.
Definition tb_empty : tbounds := mk_tb None None.

(** What is passed to [register]. *)
Inductive relem : Type :=
| RBounds (b : tbounds)
| REvent (e : event)
| RDate (d : datetime)
| ROther.                     (* None or anything else: ignored *)

(** register(datetime): XTimeBounds.py:64-72. *)
Definition tb_register_date (b : tbounds) (d : datetime) : tbounds * res unit :=
  match tb_first b with
  | None => (mk_tb (Some d) (Some d), Ok tt)
  | Some f =>
      match dt_cmp d f with
      | Raise x => (b, Raise x)
      | Ok Lt => (mk_tb (Some d) (tb_last b), Ok tt)
      | Ok _ =>
          match tb_last b with
          | None => (b, Raise TypeError)
          | Some l => match dt_cmp d l with
                      | Raise x => (b, Raise x)
                      | Ok Gt => (mk_tb (Some f) (Some d), Ok tt)
                      | Ok _ => (b, Ok tt)
                      end
          end
      end
  end.

Definition tb_register_opt (b : tbounds) (d : option datetime) : tbounds * res unit :=
  match d with Some d => tb_register_date b d | None => (b, Ok tt) end.

(** register: XTimeBounds.py:49-72.  Registering bounds in themselves is not modelled
    (the argument is a separate object). *)
Definition tb_register (b : tbounds) (x : relem) : tbounds * res unit :=
  match x with
  | RBounds o =>                                   (* lines 57-59 *)
      match tb_register_opt b (tb_first o) with
      | (b', Ok _) => tb_register_opt b' (tb_last o)
      | r => r
      end
  | REvent e =>                                    (* lines 60-63 *)
      match StdExt.extract_timestamp (ev_attrs e) with
      | Ok (PDate d) => tb_register_date b d
      | Ok _ => (b, Ok tt)
      | Raise x => (b, Raise x)
      end
  | RDate d => tb_register_date b d
  | ROther => (b, Ok tt)
  end.

(** A history of registrations; stops at the first exception. *)
Fixpoint tb_register_all (b : tbounds) (xs : list relem) : tbounds * res unit :=
  match xs with
  | [] => (b, Ok tt)
  | x :: xs => match tb_register b x with
               | (b', Ok _) => tb_register_all b' xs
               | r => r
               end
  end.

(** is_within: XTimeBounds.py:31-47. *)
Definition tb_is_within (b : tbounds) (d : datetime) : res bool :=
  match tb_first b with
  | None => Ok false
  | Some f =>
      if dt_eqb d f then Ok true
      else if match tb_last b with Some l => dt_eqb d l | None => false end then Ok true
      else match dt_cmp f d with
           | Raise x => Raise x
           | Ok Lt => match tb_last b with
                      | None => Raise TypeError
                      | Some l => match dt_cmp d l with
                                  | Raise x => Raise x
                                  | Ok c => Ok (match c with Lt => true | _ => false end)
                                  end
                      end
           | Ok _ => Ok false
           end
  end.

(** __str__: XTimeBounds.py:74-75. *)
Definition end_str (d : option datetime) : pystr := match d with Some d => dt_str d | None => py "None" end.
Definition tb_str (b : tbounds) : pystr := end_str (tb_first b) ++ py " -- " ++ end_str (tb_last b).
