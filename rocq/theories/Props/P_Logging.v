(** Property C77: log messages. *)
From Coq Require Import String NArith List Bool.
From Verif Require Import Base.PyBase Model.Logging Spec.Logging Proofs.LoggingFacts.
Import ListNotations.

(** A message goes to the listener that was set last at this logger (the standard one if none
    was), with importance DEBUG if none is given, and nowhere if the listener is None. *)
Theorem C77_message : forall ops i l t p, sends_to ops i l ->
  g_sent (g_run (ops ++ [GLog i t p])) = g_sent (g_run ops) ++
    match l with Some l => [(l, (match p with Some p => p | None => py "DEBUG" end, t))] | None => [] end.
Proof. exact message_sent. Qed.
Print Assumptions C77_message.

Theorem C77_loggers : forall ops i, i < new_loggers ops -> exists l, sends_to ops i l.
Proof. exact sends_exists. Qed.
Print Assumptions C77_loggers.

(** The library's messages are printed, whatever listeners were set before. *)
Theorem C77_library : forall ops t p,
  g_sent (g_run (ops ++ [GLibrary t p])) = g_sent (g_run ops) ++ [(LStd, (p, t))].
Proof. exact library_message. Qed.
Print Assumptions C77_library.

(** So a caller that sets listeners, but does not log, receives nothing. *)
Theorem C77_nothing : forall ops, (forall o, In o ops -> callers o = false) ->
  g_sent (g_run ops) = map (pair LStd) (library ops).
Proof. exact library_prints. Qed.
Print Assumptions C77_nothing.

(** It is false that [set_listener] diverts the messages of the library. *)
Theorem C77_divert_refuted : ~ (forall ops t p, (exists i n, sends_to ops i (Some (LOwn n))) ->
  g_sent (g_run (ops ++ [GLibrary t p])) <> g_sent (g_run ops) ++ [(LStd, (p, t))]).
Proof.
  intros H. apply (H [GNew; GSet 0 (Some (LOwn 4))] [] []); [|reflexivity].
  exists 0, 4. apply (st_set [GNew] 0 (Some LStd)). apply (st_new []).
Qed.
Print Assumptions C77_divert_refuted.

Definition logged : list gop :=
  [GNew; GNew; GSet 1 (Some (LOwn 4)); GLog 0 (py "a") None; GLog 1 (py "b") (Some (py "INFO"));
   GLibrary (py "start serializing log to MXML") (py "DEBUG"); GSet 1 None; GLog 1 (py "c") None].
Example C77_example :
  received (LOwn 4) (g_run logged) = [(py "INFO", py "b")]
  /\ received LStd (g_run logged) = [(py "DEBUG", py "a"); (py "DEBUG", py "start serializing log to MXML")]
  /\ std_text (py "DEBUG", py "a") = py "Importance: DEBUG" ++ [10%N] ++ py "Message: a" ++ [10%N; 10%N]
  /\ sends_to logged 1 None.
Proof.
  repeat (split; [reflexivity|]). apply (st_other (firstn 7 logged)); [|discriminate].
  apply (st_set (firstn 6 logged) 1 (Some (LOwn 4))).
  apply (st_other (firstn 5 logged)); [|discriminate]. apply (st_other (firstn 4 logged)); [|discriminate].
  apply (st_other (firstn 3 logged)); [|discriminate]. apply (st_set (firstn 2 logged) 1 (Some LStd)). apply (st_new [GNew]).
Qed.
