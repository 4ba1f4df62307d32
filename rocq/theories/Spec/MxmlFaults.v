(** Where the elements of an MXML document stand, and what is wrong with them. *)
From Coq Require Import String NArith ZArith List Bool.
From Verif Require Import Base.PyBase Base.PyDate Base.PyVal Base.Xml Model.DateConv.
Import ListNotations.

Definition one_of (t : pystr) (names : list string) : bool := existsb (fun n => str_eqb t (py n)) names.

(** Every element stands where MXML has it: instances in a process, entries in an instance,
    the fields of an entry in an entry; attributes and sources anywhere but in a field.
    Other elements may stand anywhere and what is in them is taken to stand around them. *)
Inductive mplace : Type := Outside | InProcess | InInstance | InEntry | InField.
Fixpoint mplaced (p : mplace) (x : xnode) : bool :=
  match x with
  | XText _ => true
  | XElem t _ kids =>
      if one_of t ["Process"] then match p with Outside => forallb (mplaced InProcess) kids | _ => false end
      else if one_of t ["ProcessInstance"] then match p with InProcess => forallb (mplaced InInstance) kids | _ => false end
      else if one_of t ["AuditTrailEntry"] then match p with InInstance => forallb (mplaced InEntry) kids | _ => false end
      else if one_of t ["EventType"; "Originator"; "WorkflowModelElement"; "Timestamp"] then
        match p with InEntry => forallb (mplaced InField) kids | _ => false end
      else if one_of t ["Attribute"] then match p with InField => false | _ => forallb (mplaced InField) kids end
      else if one_of t ["Source"] then match p with InField => false | _ => forallb (mplaced p) kids end
      else forallb (mplaced p) kids
  end%string.

(** The faults of a document, given the text since the last end tag: an attribute without a
    name, a time stamp whose zone is out of range. *)
Fixpoint mfaults (text : pystr) (es : list sax) : list exn :=
  match es with
  | [] => []
  | SStart t atts :: es =>
      (if one_of t ["Attribute"%string] then match sget (py "name") atts with Some _ => [] | None => [AttributeError] end else [])
      ++ mfaults text es
  | SChars c :: es => mfaults (text ++ c) es
  | SEnd t :: es =>
      (if one_of t ["Timestamp"%string] then match parse_date_time (strip text) with Ok _ => [] | Raise e => [e] end else [])
      ++ mfaults [] es
  end.

(** An element of this name occurs; one occurs inside another. *)
Fixpoint occurs (n : string) (x : xnode) : bool :=
  match x with XText _ => false | XElem t _ kids => str_eqb t (py n) || existsb (occurs n) kids end.
Fixpoint nested (n : string) (x : xnode) : bool :=
  match x with
  | XText _ => false
  | XElem t _ kids => (str_eqb t (py n) && existsb (occurs n) kids) || existsb (nested n) kids
  end.
