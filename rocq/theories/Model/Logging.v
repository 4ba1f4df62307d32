(** Log messages: /repo/src/opyenxes/log/XLogging.py, XStdoutLoggingListener.py. *)
From Coq Require Import String NArith List Bool.
From Verif Require Import Base.PyBase.
Import ListNotations.

(** The standard listener prints; others are objects of the caller. *)
Inductive listener : Type := LStd | LOwn (n : nat).
(** Importance and text as handed to a listener. *)
Definition message : Type := pystr * pystr.

(** The loggers made, with what they send to, and what was sent so far. *)
Record logging : Type := mk_lg { g_loggers : list (option listener); g_sent : list (listener * message) }.

(** XStdOutLoggingListener.log: XStdoutLoggingListener.py:5-15; [print] adds a line end. *)
Definition std_text (m : message) : pystr :=
  py "Importance: " ++ fst m ++ [10%N] ++ py "Message: " ++ snd m ++ [10%N; 10%N].

(** log: XLogging.py:21-32, of a logger that sends to [l].  The first branch calls itself once,
    with "DEBUG". *)
Definition log_message (l : option listener) (text : pystr) (importance : option pystr) : list (listener * message) :=
  let importance := match importance with None => py "DEBUG" | Some i => i end in
  match l with
  | Some l => [(l, (importance, text))]
  | None => []
  end.

(** What happens:
    - [GNew]: the caller makes [XLogging()], which sends to the standard listener: XLogging.py:9-10;
    - [GSet i l]: [set_listener] of logger [i]: XLogging.py:12-18;
    - [GLog i t p]: the caller's [log(t, p)] of logger [i];
    - [GLibrary t p]: the library's [XLogging().log(t, p)]: XesXmlSerializer.py:50, 103,
      XMxmlSerializer.py:48, 136, XMxmlParser.py:192-193, XExtensionManager.py:157-199. *)
Inductive gop : Type :=
| GNew | GSet (i : nat) (l : option listener) | GLog (i : nat) (text : pystr) (importance : option pystr)
| GLibrary (text importance : pystr).

Definition g_step (g : logging) (o : gop) : logging :=
  match o with
  | GNew => mk_lg (g_loggers g ++ [Some LStd]) (g_sent g)
  | GSet i l => mk_lg (update i (fun _ => l) (g_loggers g)) (g_sent g)
  | GLog i t p => match nth_error (g_loggers g) i with
                  | Some l => mk_lg (g_loggers g) (g_sent g ++ log_message l t p)
                  | None => g
                  end
  | GLibrary t p => mk_lg (g_loggers g) (g_sent g ++ log_message (Some LStd) t (Some p))
  end.
Definition g_run (ops : list gop) : logging := fold_left g_step ops (mk_lg [] []).
(** What one listener received. *)
Definition received (l : listener) (g : logging) : list message :=
  map snd (filter (fun p => match fst p, l with LStd, LStd => true | LOwn a, LOwn b => Nat.eqb a b | _, _ => false end) (g_sent g)).
