(** What the textual layer does to a tree, and which trees it can carry. *)
From Coq Require Import String NArith ZArith List Bool.
From Verif Require Import Base.PyBase Base.Xml Model.XmlChars.
Import ListNotations.
Local Open Scope N_scope.

(** An attribute value afterwards: each line break (CR LF, CR or LF) and each tab is a blank.
    Text: each line break is LF. *)
Definition blank_char (c : N) : N := if (c =? 9) || (c =? 10) then 32 else c.
Definition normal_value (s : pystr) : pystr := map blank_char (newlines s).
Fixpoint normal (x : xnode) : xnode :=
  match x with
  | XText s => XText (newlines s)
  | XElem t a kids => XElem t (map (fun kv => (fst kv, normal_value (snd kv))) a) (map normal kids)
  end.

(** Nothing to normalise. *)
Definition calm (s : pystr) : bool := forallb (fun c => negb ((c =? 9) || (c =? 10) || (c =? 13))) s.
Fixpoint calm_tree (x : xnode) : bool :=
  match x with
  | XText s => forallb (fun c => negb (c =? 13)) s
  | XElem _ a kids => forallb (fun kv => calm (snd kv)) a && forallb calm_tree kids
  end.

(** Only legal characters in values and text. *)
Definition legal_text (s : pystr) : bool := forallb legal s.
Fixpoint legal_tree (x : xnode) : bool :=
  match x with
  | XText s => legal_text s
  | XElem _ a kids => forallb (fun kv => legal_text (snd kv)) a && forallb legal_tree kids
  end.

(** Simple names (letters, digits, [_ - .]), no attribute twice; no empty text and no two texts
    next to each other. *)
Definition simple_name (n : pystr) : bool :=
  match n with c :: r => name_start c && forallb name_char r | [] => false end.
Fixpoint distinct (l : list pystr) : bool :=
  match l with [] => true | k :: r => negb (existsb (str_eqb k) r) && distinct r end.
Definition is_text (x : xnode) : bool := match x with XText _ => true | _ => false end.
Fixpoint apart (l : list xnode) : bool :=
  match l with
  | x :: ((y :: _) as r) => negb (is_text x && is_text y) && apart r
  | _ => true
  end.
Fixpoint shaped (x : xnode) : bool :=
  match x with
  | XText s => match s with [] => false | _ => true end
  | XElem t a kids => simple_name t && forallb (fun kv => simple_name (fst kv)) a && distinct (map fst a)
                      && apart kids && forallb shaped kids
  end.

(** The same calls, however the text is cut into pieces. *)
Fixpoint merge (es : list sax) : list sax :=
  match es with
  | SChars s :: r => match merge r with
                     | SChars s' :: r' => SChars (s ++ s') :: r'
                     | r' => match s with [] => r' | _ => SChars s :: r' end
                     end
  | e :: r => e :: merge r
  | [] => []
  end.
Definition same_calls (es es' : list sax) : Prop := merge es = merge es'.
