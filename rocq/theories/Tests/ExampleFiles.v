(** Files in /repo/example/xes_file that the authors of the library made with it, and what
    the model makes of the same input.  These are tests, no proofs.

    The files were written by an older version of Python, in which dictionaries have no order
    and the attributes of an element are sorted by name.  So neighbouring attributes and
    extensions may be in any order, and so may the characters of the lines with the features
    and classifiers. *)
From Coq Require Import String NArith ZArith SpecFloat List Bool.
From Verif Require Import Base.PyBase Base.PyDate Base.PyVal Base.Xml Model.Attr Model.Log Model.Classify Model.Registry
  Model.XesWrite Model.XesRead Model.XmlText Model.XmlChars Model.Examples Spec.Typing Spec.Xes.
Import ListNotations.

(** ** Lines *)

Definition movable (line : pystr) : bool := contains (py "key=") line || contains (py "<extension") line.
Definition loose_line (line : pystr) : bool := contains (py "<log") line || contains (py "<classifier") line.
Fixpoint insert_char (c : N) (l : pystr) : pystr :=
  match l with [] => [c] | d :: t => if (c <=? d)%N then c :: l else d :: insert_char c t end.
(** Runs of movable lines are sorted. *)
Fixpoint arranged (run : list pystr) (lines : list pystr) : list pystr :=
  match lines with
  | [] => run
  | x :: t => if movable x then arranged (insert_str x run) t
              else run ++ (if loose_line x then fold_right insert_char [] x else x) :: arranged [] t
  end.
Definition arranged_text (s : pystr) : list pystr := arranged [] (split [10%N] s).
(** The lines that differ. *)
Definition differences (s t : pystr) : list (pystr * pystr) :=
  filter (fun p => negb (str_eqb (fst p) (snd p))) (combine (arranged_text s) (arranged_text t)).
Definition same_number_of_lines (s t : pystr) : bool :=
  Nat.eqb (List.length (arranged_text s)) (List.length (arranged_text t)).
Definition tabs (n : nat) : pystr := repeat 9%N n.

(** ** The log in a heap *)

Fixpoint heap_attr (fuel : nat) (h : list pobj) (i : nat) : option attr :=
  match fuel, nth_error h i with
  | S n, Some (OAttr c k x v coll meta) =>
      match map_opt (heap_attr n h) coll, map_opt (fun p => option_map (pair (fst p)) (heap_attr n h (snd p))) meta with
      | Some l, Some m => Some (mk_attr c k x v l m)
      | _, _ => None
      end
  | _, _ => None
  end.
(** Attributes are nested ten deep at most. *)
Definition heap_map (h : list pobj) : sdict nat -> option (sdict attr) :=
  map_opt (fun p => option_map (pair (fst p)) (heap_attr 10 h (snd p))).
Definition heap_event (h : list pobj) (o : option nat) : option event :=
  match o with
  | Some i => match nth_error h i with
              | Some (OEvent id m) => option_map (mk_event id) (heap_map h m)
              | _ => None
              end
  | None => None
  end.
Definition heap_trace (h : list pobj) (o : option nat) : option trace :=
  match o with
  | Some i => match nth_error h i with
              | Some (OTrace m es) =>
                  match heap_map h m, map_opt (heap_event h) es with
                  | Some m, Some es => Some (mk_trace m es)
                  | _, _ => None
                  end
              | _ => None
              end
  | None => None
  end.
Definition heap_log (h : list pobj) (i : nat) : option xlog :=
  match nth_error h i with
  | Some (OLog m ts exts cls gt ge fs) =>
      match heap_map h m, map_opt (heap_trace h) ts, map_opt (heap_attr 10 h) gt, map_opt (heap_attr 10 h) ge with
      | Some m, Some ts, Some gt, Some ge => Some (mk_log m ts exts cls gt ge fs)
      | _, _, _, _ => None
      end
  | _ => None
  end.

(** ** Reading and writing whole files *)

Section Files.
Context `{F : FloatIO}.
Definition load (text : pystr) : option xlog :=
  match read_xml text with
  | Some es => match xes_run std_manager (fun u => Some u) N.of_nat es ps_init with
               | Ok s => match p_log s with Some i => heap_log (p_heap s) i | None => None end
               | Raise _ => None
               end
  | None => None
  end.
Definition save (l : xlog) : pystr :=
  match xes_serialize l with
  | Ok d => match write_xml xes_comments d with Some t => t | None => [] end
  | Raise _ => []
  end.
End Files.

(** ** Anonymize_a_log.py *)

(** example/xes_file/general_example.xes *)
Definition general_example : pystr := py "<?xml version=""1.0"" encoding=""UTF-8"" ?>
<!-- XES version 1.0 -->
<!-- Created by Fluxicon Nitro (http://fluxicon.com/nitro/ -->
<!-- (c) 2010 Fluxicon Process Laboratories / http://fluxicon.com/ -->
<log xes.version=""1.0"" xmlns=""http://code.deckfour.org/xes"" xes.creator=""Fluxicon Nitro"">
	<extension name=""Concept"" prefix=""concept"" uri=""http://code.deckfour.org/xes/concept.xesext""/>
	<extension name=""Time"" prefix=""time"" uri=""http://code.deckfour.org/xes/time.xesext""/>
	<extension name=""Organizational"" prefix=""org"" uri=""http://code.deckfour.org/xes/org.xesext""/>
	<global scope=""trace"">
		<string key=""concept:name"" value=""name""/>
	</global>
	<global scope=""event"">
		<string key=""concept:name"" value=""name""/>
		<string key=""org:resource"" value=""resource""/>
		<date key=""time:timestamp"" value=""2011-04-13T14:02:31.199Z""/>
		<string key=""Activity"" value=""string""/>
		<string key=""Resource"" value=""string""/>
		<string key=""Costs"" value=""string""/>
	</global>
	<classifier name=""Activity"" keys=""Activity""/>
	<classifier name=""activity classifier"" keys=""Activity""/>
	<string key=""creator"" value=""Fluxicon Nitro""/>
	<trace>
		<string key=""concept:name"" value=""3""/>
		<string key=""creator"" value=""Fluxicon Nitro""/>
		<event>
			<string key=""concept:name"" value=""register request""/>
			<string key=""org:resource"" value=""Pete""/>
			<date key=""time:timestamp"" value=""2010-12-30T14:32:00.000-01:00""/>
			<string key=""Activity"" value=""register request""/>
			<string key=""Resource"" value=""Pete""/>
			<string key=""Costs"" value=""50""/>
		</event>
		<event>
			<string key=""concept:name"" value=""examine casually""/>
			<string key=""org:resource"" value=""Mike""/>
			<date key=""time:timestamp"" value=""2010-12-30T15:06:00.000+01:00""/>
			<string key=""Activity"" value=""examine casually""/>
			<string key=""Resource"" value=""Mike""/>
			<string key=""Costs"" value=""400""/>
		</event>
		<event>
			<string key=""concept:name"" value=""check ticket""/>
			<string key=""org:resource"" value=""Ellen""/>
			<date key=""time:timestamp"" value=""2010-12-30T16:34:00.000+01:00""/>
			<string key=""Activity"" value=""check ticket""/>
			<string key=""Resource"" value=""Ellen""/>
			<string key=""Costs"" value=""100""/>
		</event>
		<event>
			<string key=""concept:name"" value=""decide""/>
			<string key=""org:resource"" value=""Sara""/>
			<date key=""time:timestamp"" value=""2011-01-06T09:18:00.000+01:00""/>
			<string key=""Activity"" value=""decide""/>
			<string key=""Resource"" value=""Sara""/>
			<string key=""Costs"" value=""200""/>
		</event>
		<event>
			<string key=""concept:name"" value=""reinitiate request""/>
			<string key=""org:resource"" value=""Sara""/>
			<date key=""time:timestamp"" value=""2011-01-06T12:18:00.000+01:00""/>
			<string key=""Activity"" value=""reinitiate request""/>
			<string key=""Resource"" value=""Sara""/>
			<string key=""Costs"" value=""200""/>
		</event>
		<event>
			<string key=""concept:name"" value=""examine thoroughly""/>
			<string key=""org:resource"" value=""Sean""/>
			<date key=""time:timestamp"" value=""2011-01-06T13:06:00.000+01:00""/>
			<string key=""Activity"" value=""examine thoroughly""/>
			<string key=""Resource"" value=""Sean""/>
			<string key=""Costs"" value=""400""/>
		</event>
		<event>
			<string key=""concept:name"" value=""check ticket""/>
			<string key=""org:resource"" value=""Pete""/>
			<date key=""time:timestamp"" value=""2011-01-08T11:43:00.000+01:00""/>
			<string key=""Activity"" value=""check ticket""/>
			<string key=""Resource"" value=""Pete""/>
			<string key=""Costs"" value=""100""/>
		</event>
		<event>
			<string key=""concept:name"" value=""decide""/>
			<string key=""org:resource"" value=""Sara""/>
			<date key=""time:timestamp"" value=""2011-01-09T09:55:00.000+01:00""/>
			<string key=""Activity"" value=""decide""/>
			<string key=""Resource"" value=""Sara""/>
			<string key=""Costs"" value=""200""/>
		</event>
		<event>
			<string key=""concept:name"" value=""pay compensation""/>
			<string key=""org:resource"" value=""Ellen""/>
			<date key=""time:timestamp"" value=""2011-01-15T10:45:00.000+01:00""/>
			<string key=""Activity"" value=""pay compensation""/>
			<string key=""Resource"" value=""Ellen""/>
			<string key=""Costs"" value=""200""/>
		</event>
	</trace>
	<trace>
		<string key=""concept:name"" value=""2""/>
		<string key=""creator"" value=""Fluxicon Nitro""/>
		<event>
			<string key=""concept:name"" value=""register request""/>
			<string key=""org:resource"" value=""Mike""/>
			<date key=""time:timestamp"" value=""2010-12-30T11:32:00.000+01:00""/>
			<string key=""Activity"" value=""register request""/>
			<string key=""Resource"" value=""Mike""/>
			<string key=""Costs"" value=""50""/>
		</event>
		<event>
			<string key=""concept:name"" value=""check ticket""/>
			<string key=""org:resource"" value=""Mike""/>
			<date key=""time:timestamp"" value=""2010-12-30T12:12:00.000+01:00""/>
			<string key=""Activity"" value=""check ticket""/>
			<string key=""Resource"" value=""Mike""/>
			<string key=""Costs"" value=""100""/>
		</event>
		<event>
			<string key=""concept:name"" value=""examine casually""/>
			<string key=""org:resource"" value=""Sean""/>
			<date key=""time:timestamp"" value=""2010-12-30T14:16:00.000+01:00""/>
			<string key=""Activity"" value=""examine casually""/>
			<string key=""Resource"" value=""Sean""/>
			<string key=""Costs"" value=""400""/>
		</event>
		<event>
			<string key=""concept:name"" value=""decide""/>
			<string key=""org:resource"" value=""Sara""/>
			<date key=""time:timestamp"" value=""2011-01-05T11:22:00.000+01:00""/>
			<string key=""Activity"" value=""decide""/>
			<string key=""Resource"" value=""Sara""/>
			<string key=""Costs"" value=""200""/>
		</event>
		<event>
			<string key=""concept:name"" value=""pay compensation""/>
			<string key=""org:resource"" value=""Ellen""/>
			<date key=""time:timestamp"" value=""2011-01-08T12:05:00.000+01:00""/>
			<string key=""Activity"" value=""pay compensation""/>
			<string key=""Resource"" value=""Ellen""/>
			<string key=""Costs"" value=""200""/>
		</event>
	</trace>
	<trace>
		<string key=""concept:name"" value=""1""/>
		<string key=""creator"" value=""Fluxicon Nitro""/>
		<event>
			<string key=""concept:name"" value=""register request""/>
			<string key=""org:resource"" value=""Pete""/>
			<date key=""time:timestamp"" value=""2010-12-30T11:02:00.000+01:00""/>
			<string key=""Activity"" value=""register request""/>
			<string key=""Resource"" value=""Pete""/>
			<string key=""Costs"" value=""50""/>
		</event>
		<event>
			<string key=""concept:name"" value=""examine thoroughly""/>
			<string key=""org:resource"" value=""Sue""/>
			<date key=""time:timestamp"" value=""2010-12-31T10:06:00.000+01:00""/>
			<string key=""Activity"" value=""examine thoroughly""/>
			<string key=""Resource"" value=""Sue""/>
			<string key=""Costs"" value=""400""/>
		</event>
		<event>
			<string key=""concept:name"" value=""check ticket""/>
			<string key=""org:resource"" value=""Mike""/>
			<date key=""time:timestamp"" value=""2011-01-05T15:12:00.000+01:00""/>
			<string key=""Activity"" value=""check ticket""/>
			<string key=""Resource"" value=""Mike""/>
			<string key=""Costs"" value=""100""/>
		</event>
		<event>
			<string key=""concept:name"" value=""decide""/>
			<string key=""org:resource"" value=""Sara""/>
			<date key=""time:timestamp"" value=""2011-01-06T11:18:00.000+01:00""/>
			<string key=""Activity"" value=""decide""/>
			<string key=""Resource"" value=""Sara""/>
			<string key=""Costs"" value=""200""/>
		</event>
		<event>
			<string key=""concept:name"" value=""reject request""/>
			<string key=""org:resource"" value=""Pete""/>
			<date key=""time:timestamp"" value=""2011-01-07T14:24:00.000+01:00""/>
			<string key=""Activity"" value=""reject request""/>
			<string key=""Resource"" value=""Pete""/>
			<string key=""Costs"" value=""200""/>
		</event>
	</trace>
	<trace>
		<string key=""concept:name"" value=""6""/>
		<string key=""creator"" value=""Fluxicon Nitro""/>
		<event>
			<string key=""concept:name"" value=""register request""/>
			<string key=""org:resource"" value=""Mike""/>
			<date key=""time:timestamp"" value=""2011-01-06T15:02:00.000+01:00""/>
			<string key=""Activity"" value=""register request""/>
			<string key=""Resource"" value=""Mike""/>
			<string key=""Costs"" value=""50""/>
		</event>
		<event>
			<string key=""concept:name"" value=""examine casually""/>
			<string key=""org:resource"" value=""Ellen""/>
			<date key=""time:timestamp"" value=""2011-01-06T16:06:00.000+01:00""/>
			<string key=""Activity"" value=""examine casually""/>
			<string key=""Resource"" value=""Ellen""/>
			<string key=""Costs"" value=""400""/>
		</event>
		<event>
			<string key=""concept:name"" value=""check ticket""/>
			<string key=""org:resource"" value=""Mike""/>
			<date key=""time:timestamp"" value=""2011-01-07T16:22:00.000+01:00""/>
			<string key=""Activity"" value=""check ticket""/>
			<string key=""Resource"" value=""Mike""/>
			<string key=""Costs"" value=""100""/>
		</event>
		<event>
			<string key=""concept:name"" value=""decide""/>
			<string key=""org:resource"" value=""Sara""/>
			<date key=""time:timestamp"" value=""2011-01-07T16:52:00.000+01:00""/>
			<string key=""Activity"" value=""decide""/>
			<string key=""Resource"" value=""Sara""/>
			<string key=""Costs"" value=""200""/>
		</event>
		<event>
			<string key=""concept:name"" value=""pay compensation""/>
			<string key=""org:resource"" value=""Mike""/>
			<date key=""time:timestamp"" value=""2011-01-16T11:47:00.000+01:00""/>
			<string key=""Activity"" value=""pay compensation""/>
			<string key=""Resource"" value=""Mike""/>
			<string key=""Costs"" value=""200""/>
		</event>
	</trace>
	<trace>
		<string key=""concept:name"" value=""5""/>
		<string key=""creator"" value=""Fluxicon Nitro""/>
		<event>
			<string key=""concept:name"" value=""register request""/>
			<string key=""org:resource"" value=""Ellen""/>
			<date key=""time:timestamp"" value=""2011-01-06T09:02:00.000+01:00""/>
			<string key=""Activity"" value=""register request""/>
			<string key=""Resource"" value=""Ellen""/>
			<string key=""Costs"" value=""50""/>
		</event>
		<event>
			<string key=""concept:name"" value=""examine casually""/>
			<string key=""org:resource"" value=""Mike""/>
			<date key=""time:timestamp"" value=""2011-01-07T10:16:00.000+01:00""/>
			<string key=""Activity"" value=""examine casually""/>
			<string key=""Resource"" value=""Mike""/>
			<string key=""Costs"" value=""400""/>
		</event>
		<event>
			<string key=""concept:name"" value=""check ticket""/>
			<string key=""org:resource"" value=""Pete""/>
			<date key=""time:timestamp"" value=""2011-01-08T11:22:00.000+01:00""/>
			<string key=""Activity"" value=""check ticket""/>
			<string key=""Resource"" value=""Pete""/>
			<string key=""Costs"" value=""100""/>
		</event>
		<event>
			<string key=""concept:name"" value=""decide""/>
			<string key=""org:resource"" value=""Sara""/>
			<date key=""time:timestamp"" value=""2011-01-10T13:28:00.000+01:00""/>
			<string key=""Activity"" value=""decide""/>
			<string key=""Resource"" value=""Sara""/>
			<string key=""Costs"" value=""200""/>
		</event>
		<event>
			<string key=""concept:name"" value=""reinitiate request""/>
			<string key=""org:resource"" value=""Sara""/>
			<date key=""time:timestamp"" value=""2011-01-11T16:18:00.000+01:00""/>
			<string key=""Activity"" value=""reinitiate request""/>
			<string key=""Resource"" value=""Sara""/>
			<string key=""Costs"" value=""200""/>
		</event>
		<event>
			<string key=""concept:name"" value=""check ticket""/>
			<string key=""org:resource"" value=""Ellen""/>
			<date key=""time:timestamp"" value=""2011-01-14T14:33:00.000+01:00""/>
			<string key=""Activity"" value=""check ticket""/>
			<string key=""Resource"" value=""Ellen""/>
			<string key=""Costs"" value=""100""/>
		</event>
		<event>
			<string key=""concept:name"" value=""examine casually""/>
			<string key=""org:resource"" value=""Mike""/>
			<date key=""time:timestamp"" value=""2011-01-16T15:50:00.000+01:00""/>
			<string key=""Activity"" value=""examine casually""/>
			<string key=""Resource"" value=""Mike""/>
			<string key=""Costs"" value=""400""/>
		</event>
		<event>
			<string key=""concept:name"" value=""decide""/>
			<string key=""org:resource"" value=""Sara""/>
			<date key=""time:timestamp"" value=""2011-01-19T11:18:00.000+01:00""/>
			<string key=""Activity"" value=""decide""/>
			<string key=""Resource"" value=""Sara""/>
			<string key=""Costs"" value=""200""/>
		</event>
		<event>
			<string key=""concept:name"" value=""reinitiate request""/>
			<string key=""org:resource"" value=""Sara""/>
			<date key=""time:timestamp"" value=""2011-01-20T12:48:00.000+01:00""/>
			<string key=""Activity"" value=""reinitiate request""/>
			<string key=""Resource"" value=""Sara""/>
			<string key=""Costs"" value=""200""/>
		</event>
		<event>
			<string key=""concept:name"" value=""examine casually""/>
			<string key=""org:resource"" value=""Sue""/>
			<date key=""time:timestamp"" value=""2011-01-21T09:06:00.000+01:00""/>
			<string key=""Activity"" value=""examine casually""/>
			<string key=""Resource"" value=""Sue""/>
			<string key=""Costs"" value=""400""/>
		</event>
		<event>
			<string key=""concept:name"" value=""check ticket""/>
			<string key=""org:resource"" value=""Pete""/>
			<date key=""time:timestamp"" value=""2011-01-21T11:34:00.000+01:00""/>
			<string key=""Activity"" value=""check ticket""/>
			<string key=""Resource"" value=""Pete""/>
			<string key=""Costs"" value=""100""/>
		</event>
		<event>
			<string key=""concept:name"" value=""decide""/>
			<string key=""org:resource"" value=""Sara""/>
			<date key=""time:timestamp"" value=""2011-01-23T13:12:00.000+01:00""/>
			<string key=""Activity"" value=""decide""/>
			<string key=""Resource"" value=""Sara""/>
			<string key=""Costs"" value=""200""/>
		</event>
		<event>
			<string key=""concept:name"" value=""reject request""/>
			<string key=""org:resource"" value=""Mike""/>
			<date key=""time:timestamp"" value=""2011-01-24T14:56:00.000+01:00""/>
			<string key=""Activity"" value=""reject request""/>
			<string key=""Resource"" value=""Mike""/>
			<string key=""Costs"" value=""200""/>
		</event>
	</trace>
	<trace>
		<string key=""concept:name"" value=""4""/>
		<string key=""creator"" value=""Fluxicon Nitro""/>
		<event>
			<string key=""concept:name"" value=""register request""/>
			<string key=""org:resource"" value=""Pete""/>
			<date key=""time:timestamp"" value=""2011-01-06T15:02:00.000+01:00""/>
			<string key=""Activity"" value=""register request""/>
			<string key=""Resource"" value=""Pete""/>
			<string key=""Costs"" value=""50""/>
		</event>
		<event>
			<string key=""concept:name"" value=""check ticket""/>
			<string key=""org:resource"" value=""Mike""/>
			<date key=""time:timestamp"" value=""2011-01-07T12:06:00.000+01:00""/>
			<string key=""Activity"" value=""check ticket""/>
			<string key=""Resource"" value=""Mike""/>
			<string key=""Costs"" value=""100""/>
		</event>
		<event>
			<string key=""concept:name"" value=""examine thoroughly""/>
			<string key=""org:resource"" value=""Sean""/>
			<date key=""time:timestamp"" value=""2011-01-08T14:43:00.000+01:00""/>
			<string key=""Activity"" value=""examine thoroughly""/>
			<string key=""Resource"" value=""Sean""/>
			<string key=""Costs"" value=""400""/>
		</event>
		<event>
			<string key=""concept:name"" value=""decide""/>
			<string key=""org:resource"" value=""Sara""/>
			<date key=""time:timestamp"" value=""2011-01-09T12:02:00.000+01:00""/>
			<string key=""Activity"" value=""decide""/>
			<string key=""Resource"" value=""Sara""/>
			<string key=""Costs"" value=""200""/>
		</event>
		<event>
			<string key=""concept:name"" value=""reject request""/>
			<string key=""org:resource"" value=""Ellen""/>
			<date key=""time:timestamp"" value=""2011-01-12T15:44:00.000+01:00""/>
			<string key=""Activity"" value=""reject request""/>
			<string key=""Resource"" value=""Ellen""/>
			<string key=""Costs"" value=""200""/>
		</event>
	</trace>
</log>
".
(** example/xes_file/general_example_anonymous.xes *)
Definition general_example_anonymous : pystr := py "<?xml version=""1.0"" ?>
<!--This file has been generated with the OpenXES library. It conforms-->
<!--to the XML serialization of the XES standard for log storage and-->
<!--management.-->
<!--XES standard version: 1.0-->
<!--OpenXES library version: 1.0RC7-->
<!--OpenXES is available from http://www.openxes.org/-->
<log openxes.version=""1.0RC7"" xes.features=""nested-attributes"" xes.version=""1.0"">
	<extension name=""Organizational"" prefix=""org"" uri=""http://www.xes-standard.org/org.xesext""/>
	<extension name=""Time"" prefix=""time"" uri=""http://www.xes-standard.org/time.xesext""/>
	<extension name=""Concept"" prefix=""concept"" uri=""http://www.xes-standard.org/concept.xesext""/>
	<global scope=""trace"">
		<string key=""concept:name"" value=""name""/>
	</global>
	<global scope=""event"">
		<string key=""concept:name"" value=""name""/>
		<string key=""org:resource"" value=""UNKNOWN""/>
		<date key=""time:timestamp"" value=""2011-04-13T14:02:31.199Z""/>
		<string key=""Activity"" value=""string""/>
		<string key=""Resource"" value=""UNKNOWN""/>
		<string key=""Costs"" value=""string""/>
	</global>
	<classifier keys=""Activity"" name=""Activity""/>
	<classifier keys=""Activity"" name=""activity classifier""/>
	<string key=""creator"" value=""Fluxicon Nitro""/>
	<trace>
		<string key=""creator"" value=""Fluxicon Nitro""/>
		<string key=""concept:name"" value=""3""/>
		<event>
			<string key=""org:resource"" value=""UNKNOWN""/>
			<date key=""time:timestamp"" value=""2010-12-30T14:32:00.000-01:00""/>
			<string key=""Resource"" value=""UNKNOWN""/>
			<string key=""Activity"" value=""register request""/>
			<string key=""Costs"" value=""50""/>
			<string key=""concept:name"" value=""register request""/>
		</event>
		<event>
			<string key=""org:resource"" value=""UNKNOWN""/>
			<date key=""time:timestamp"" value=""2010-12-30T15:06:00.000+01:00""/>
			<string key=""Resource"" value=""UNKNOWN""/>
			<string key=""Activity"" value=""examine casually""/>
			<string key=""Costs"" value=""400""/>
			<string key=""concept:name"" value=""examine casually""/>
		</event>
		<event>
			<string key=""org:resource"" value=""UNKNOWN""/>
			<date key=""time:timestamp"" value=""2010-12-30T16:34:00.000+01:00""/>
			<string key=""Resource"" value=""UNKNOWN""/>
			<string key=""Activity"" value=""check ticket""/>
			<string key=""Costs"" value=""100""/>
			<string key=""concept:name"" value=""check ticket""/>
		</event>
		<event>
			<string key=""org:resource"" value=""UNKNOWN""/>
			<date key=""time:timestamp"" value=""2011-01-06T09:18:00.000+01:00""/>
			<string key=""Resource"" value=""UNKNOWN""/>
			<string key=""Activity"" value=""decide""/>
			<string key=""Costs"" value=""200""/>
			<string key=""concept:name"" value=""decide""/>
		</event>
		<event>
			<string key=""org:resource"" value=""UNKNOWN""/>
			<date key=""time:timestamp"" value=""2011-01-06T12:18:00.000+01:00""/>
			<string key=""Resource"" value=""UNKNOWN""/>
			<string key=""Activity"" value=""reinitiate request""/>
			<string key=""Costs"" value=""200""/>
			<string key=""concept:name"" value=""reinitiate request""/>
		</event>
		<event>
			<string key=""org:resource"" value=""UNKNOWN""/>
			<date key=""time:timestamp"" value=""2011-01-06T13:06:00.000+01:00""/>
			<string key=""Resource"" value=""UNKNOWN""/>
			<string key=""Activity"" value=""examine thoroughly""/>
			<string key=""Costs"" value=""400""/>
			<string key=""concept:name"" value=""examine thoroughly""/>
		</event>
		<event>
			<string key=""org:resource"" value=""UNKNOWN""/>
			<date key=""time:timestamp"" value=""2011-01-08T11:43:00.000+01:00""/>
			<string key=""Resource"" value=""UNKNOWN""/>
			<string key=""Activity"" value=""check ticket""/>
			<string key=""Costs"" value=""100""/>
			<string key=""concept:name"" value=""check ticket""/>
		</event>
		<event>
			<string key=""org:resource"" value=""UNKNOWN""/>
			<date key=""time:timestamp"" value=""2011-01-09T09:55:00.000+01:00""/>
			<string key=""Resource"" value=""UNKNOWN""/>
			<string key=""Activity"" value=""decide""/>
			<string key=""Costs"" value=""200""/>
			<string key=""concept:name"" value=""decide""/>
		</event>
		<event>
			<string key=""org:resource"" value=""UNKNOWN""/>
			<date key=""time:timestamp"" value=""2011-01-15T10:45:00.000+01:00""/>
			<string key=""Resource"" value=""UNKNOWN""/>
			<string key=""Activity"" value=""pay compensation""/>
			<string key=""Costs"" value=""200""/>
			<string key=""concept:name"" value=""pay compensation""/>
		</event>
	</trace>
	<trace>
		<string key=""creator"" value=""Fluxicon Nitro""/>
		<string key=""concept:name"" value=""2""/>
		<event>
			<string key=""org:resource"" value=""UNKNOWN""/>
			<date key=""time:timestamp"" value=""2010-12-30T11:32:00.000+01:00""/>
			<string key=""Resource"" value=""UNKNOWN""/>
			<string key=""Activity"" value=""register request""/>
			<string key=""Costs"" value=""50""/>
			<string key=""concept:name"" value=""register request""/>
		</event>
		<event>
			<string key=""org:resource"" value=""UNKNOWN""/>
			<date key=""time:timestamp"" value=""2010-12-30T12:12:00.000+01:00""/>
			<string key=""Resource"" value=""UNKNOWN""/>
			<string key=""Activity"" value=""check ticket""/>
			<string key=""Costs"" value=""100""/>
			<string key=""concept:name"" value=""check ticket""/>
		</event>
		<event>
			<string key=""org:resource"" value=""UNKNOWN""/>
			<date key=""time:timestamp"" value=""2010-12-30T14:16:00.000+01:00""/>
			<string key=""Resource"" value=""UNKNOWN""/>
			<string key=""Activity"" value=""examine casually""/>
			<string key=""Costs"" value=""400""/>
			<string key=""concept:name"" value=""examine casually""/>
		</event>
		<event>
			<string key=""org:resource"" value=""UNKNOWN""/>
			<date key=""time:timestamp"" value=""2011-01-05T11:22:00.000+01:00""/>
			<string key=""Resource"" value=""UNKNOWN""/>
			<string key=""Activity"" value=""decide""/>
			<string key=""Costs"" value=""200""/>
			<string key=""concept:name"" value=""decide""/>
		</event>
		<event>
			<string key=""org:resource"" value=""UNKNOWN""/>
			<date key=""time:timestamp"" value=""2011-01-08T12:05:00.000+01:00""/>
			<string key=""Resource"" value=""UNKNOWN""/>
			<string key=""Activity"" value=""pay compensation""/>
			<string key=""Costs"" value=""200""/>
			<string key=""concept:name"" value=""pay compensation""/>
		</event>
	</trace>
	<trace>
		<string key=""creator"" value=""Fluxicon Nitro""/>
		<string key=""concept:name"" value=""1""/>
		<event>
			<string key=""org:resource"" value=""UNKNOWN""/>
			<date key=""time:timestamp"" value=""2010-12-30T11:02:00.000+01:00""/>
			<string key=""Resource"" value=""UNKNOWN""/>
			<string key=""Activity"" value=""register request""/>
			<string key=""Costs"" value=""50""/>
			<string key=""concept:name"" value=""register request""/>
		</event>
		<event>
			<string key=""org:resource"" value=""UNKNOWN""/>
			<date key=""time:timestamp"" value=""2010-12-31T10:06:00.000+01:00""/>
			<string key=""Resource"" value=""UNKNOWN""/>
			<string key=""Activity"" value=""examine thoroughly""/>
			<string key=""Costs"" value=""400""/>
			<string key=""concept:name"" value=""examine thoroughly""/>
		</event>
		<event>
			<string key=""org:resource"" value=""UNKNOWN""/>
			<date key=""time:timestamp"" value=""2011-01-05T15:12:00.000+01:00""/>
			<string key=""Resource"" value=""UNKNOWN""/>
			<string key=""Activity"" value=""check ticket""/>
			<string key=""Costs"" value=""100""/>
			<string key=""concept:name"" value=""check ticket""/>
		</event>
		<event>
			<string key=""org:resource"" value=""UNKNOWN""/>
			<date key=""time:timestamp"" value=""2011-01-06T11:18:00.000+01:00""/>
			<string key=""Resource"" value=""UNKNOWN""/>
			<string key=""Activity"" value=""decide""/>
			<string key=""Costs"" value=""200""/>
			<string key=""concept:name"" value=""decide""/>
		</event>
		<event>
			<string key=""org:resource"" value=""UNKNOWN""/>
			<date key=""time:timestamp"" value=""2011-01-07T14:24:00.000+01:00""/>
			<string key=""Resource"" value=""UNKNOWN""/>
			<string key=""Activity"" value=""reject request""/>
			<string key=""Costs"" value=""200""/>
			<string key=""concept:name"" value=""reject request""/>
		</event>
	</trace>
	<trace>
		<string key=""creator"" value=""Fluxicon Nitro""/>
		<string key=""concept:name"" value=""6""/>
		<event>
			<string key=""org:resource"" value=""UNKNOWN""/>
			<date key=""time:timestamp"" value=""2011-01-06T15:02:00.000+01:00""/>
			<string key=""Resource"" value=""UNKNOWN""/>
			<string key=""Activity"" value=""register request""/>
			<string key=""Costs"" value=""50""/>
			<string key=""concept:name"" value=""register request""/>
		</event>
		<event>
			<string key=""org:resource"" value=""UNKNOWN""/>
			<date key=""time:timestamp"" value=""2011-01-06T16:06:00.000+01:00""/>
			<string key=""Resource"" value=""UNKNOWN""/>
			<string key=""Activity"" value=""examine casually""/>
			<string key=""Costs"" value=""400""/>
			<string key=""concept:name"" value=""examine casually""/>
		</event>
		<event>
			<string key=""org:resource"" value=""UNKNOWN""/>
			<date key=""time:timestamp"" value=""2011-01-07T16:22:00.000+01:00""/>
			<string key=""Resource"" value=""UNKNOWN""/>
			<string key=""Activity"" value=""check ticket""/>
			<string key=""Costs"" value=""100""/>
			<string key=""concept:name"" value=""check ticket""/>
		</event>
		<event>
			<string key=""org:resource"" value=""UNKNOWN""/>
			<date key=""time:timestamp"" value=""2011-01-07T16:52:00.000+01:00""/>
			<string key=""Resource"" value=""UNKNOWN""/>
			<string key=""Activity"" value=""decide""/>
			<string key=""Costs"" value=""200""/>
			<string key=""concept:name"" value=""decide""/>
		</event>
		<event>
			<string key=""org:resource"" value=""UNKNOWN""/>
			<date key=""time:timestamp"" value=""2011-01-16T11:47:00.000+01:00""/>
			<string key=""Resource"" value=""UNKNOWN""/>
			<string key=""Activity"" value=""pay compensation""/>
			<string key=""Costs"" value=""200""/>
			<string key=""concept:name"" value=""pay compensation""/>
		</event>
	</trace>
	<trace>
		<string key=""creator"" value=""Fluxicon Nitro""/>
		<string key=""concept:name"" value=""5""/>
		<event>
			<string key=""org:resource"" value=""UNKNOWN""/>
			<date key=""time:timestamp"" value=""2011-01-06T09:02:00.000+01:00""/>
			<string key=""Resource"" value=""UNKNOWN""/>
			<string key=""Activity"" value=""register request""/>
			<string key=""Costs"" value=""50""/>
			<string key=""concept:name"" value=""register request""/>
		</event>
		<event>
			<string key=""org:resource"" value=""UNKNOWN""/>
			<date key=""time:timestamp"" value=""2011-01-07T10:16:00.000+01:00""/>
			<string key=""Resource"" value=""UNKNOWN""/>
			<string key=""Activity"" value=""examine casually""/>
			<string key=""Costs"" value=""400""/>
			<string key=""concept:name"" value=""examine casually""/>
		</event>
		<event>
			<string key=""org:resource"" value=""UNKNOWN""/>
			<date key=""time:timestamp"" value=""2011-01-08T11:22:00.000+01:00""/>
			<string key=""Resource"" value=""UNKNOWN""/>
			<string key=""Activity"" value=""check ticket""/>
			<string key=""Costs"" value=""100""/>
			<string key=""concept:name"" value=""check ticket""/>
		</event>
		<event>
			<string key=""org:resource"" value=""UNKNOWN""/>
			<date key=""time:timestamp"" value=""2011-01-10T13:28:00.000+01:00""/>
			<string key=""Resource"" value=""UNKNOWN""/>
			<string key=""Activity"" value=""decide""/>
			<string key=""Costs"" value=""200""/>
			<string key=""concept:name"" value=""decide""/>
		</event>
		<event>
			<string key=""org:resource"" value=""UNKNOWN""/>
			<date key=""time:timestamp"" value=""2011-01-11T16:18:00.000+01:00""/>
			<string key=""Resource"" value=""UNKNOWN""/>
			<string key=""Activity"" value=""reinitiate request""/>
			<string key=""Costs"" value=""200""/>
			<string key=""concept:name"" value=""reinitiate request""/>
		</event>
		<event>
			<string key=""org:resource"" value=""UNKNOWN""/>
			<date key=""time:timestamp"" value=""2011-01-14T14:33:00.000+01:00""/>
			<string key=""Resource"" value=""UNKNOWN""/>
			<string key=""Activity"" value=""check ticket""/>
			<string key=""Costs"" value=""100""/>
			<string key=""concept:name"" value=""check ticket""/>
		</event>
		<event>
			<string key=""org:resource"" value=""UNKNOWN""/>
			<date key=""time:timestamp"" value=""2011-01-16T15:50:00.000+01:00""/>
			<string key=""Resource"" value=""UNKNOWN""/>
			<string key=""Activity"" value=""examine casually""/>
			<string key=""Costs"" value=""400""/>
			<string key=""concept:name"" value=""examine casually""/>
		</event>
		<event>
			<string key=""org:resource"" value=""UNKNOWN""/>
			<date key=""time:timestamp"" value=""2011-01-19T11:18:00.000+01:00""/>
			<string key=""Resource"" value=""UNKNOWN""/>
			<string key=""Activity"" value=""decide""/>
			<string key=""Costs"" value=""200""/>
			<string key=""concept:name"" value=""decide""/>
		</event>
		<event>
			<string key=""org:resource"" value=""UNKNOWN""/>
			<date key=""time:timestamp"" value=""2011-01-20T12:48:00.000+01:00""/>
			<string key=""Resource"" value=""UNKNOWN""/>
			<string key=""Activity"" value=""reinitiate request""/>
			<string key=""Costs"" value=""200""/>
			<string key=""concept:name"" value=""reinitiate request""/>
		</event>
		<event>
			<string key=""org:resource"" value=""UNKNOWN""/>
			<date key=""time:timestamp"" value=""2011-01-21T09:06:00.000+01:00""/>
			<string key=""Resource"" value=""UNKNOWN""/>
			<string key=""Activity"" value=""examine casually""/>
			<string key=""Costs"" value=""400""/>
			<string key=""concept:name"" value=""examine casually""/>
		</event>
		<event>
			<string key=""org:resource"" value=""UNKNOWN""/>
			<date key=""time:timestamp"" value=""2011-01-21T11:34:00.000+01:00""/>
			<string key=""Resource"" value=""UNKNOWN""/>
			<string key=""Activity"" value=""check ticket""/>
			<string key=""Costs"" value=""100""/>
			<string key=""concept:name"" value=""check ticket""/>
		</event>
		<event>
			<string key=""org:resource"" value=""UNKNOWN""/>
			<date key=""time:timestamp"" value=""2011-01-23T13:12:00.000+01:00""/>
			<string key=""Resource"" value=""UNKNOWN""/>
			<string key=""Activity"" value=""decide""/>
			<string key=""Costs"" value=""200""/>
			<string key=""concept:name"" value=""decide""/>
		</event>
		<event>
			<string key=""org:resource"" value=""UNKNOWN""/>
			<date key=""time:timestamp"" value=""2011-01-24T14:56:00.000+01:00""/>
			<string key=""Resource"" value=""UNKNOWN""/>
			<string key=""Activity"" value=""reject request""/>
			<string key=""Costs"" value=""200""/>
			<string key=""concept:name"" value=""reject request""/>
		</event>
	</trace>
	<trace>
		<string key=""creator"" value=""Fluxicon Nitro""/>
		<string key=""concept:name"" value=""4""/>
		<event>
			<string key=""org:resource"" value=""UNKNOWN""/>
			<date key=""time:timestamp"" value=""2011-01-06T15:02:00.000+01:00""/>
			<string key=""Resource"" value=""UNKNOWN""/>
			<string key=""Activity"" value=""register request""/>
			<string key=""Costs"" value=""50""/>
			<string key=""concept:name"" value=""register request""/>
		</event>
		<event>
			<string key=""org:resource"" value=""UNKNOWN""/>
			<date key=""time:timestamp"" value=""2011-01-07T12:06:00.000+01:00""/>
			<string key=""Resource"" value=""UNKNOWN""/>
			<string key=""Activity"" value=""check ticket""/>
			<string key=""Costs"" value=""100""/>
			<string key=""concept:name"" value=""check ticket""/>
		</event>
		<event>
			<string key=""org:resource"" value=""UNKNOWN""/>
			<date key=""time:timestamp"" value=""2011-01-08T14:43:00.000+01:00""/>
			<string key=""Resource"" value=""UNKNOWN""/>
			<string key=""Activity"" value=""examine thoroughly""/>
			<string key=""Costs"" value=""400""/>
			<string key=""concept:name"" value=""examine thoroughly""/>
		</event>
		<event>
			<string key=""org:resource"" value=""UNKNOWN""/>
			<date key=""time:timestamp"" value=""2011-01-09T12:02:00.000+01:00""/>
			<string key=""Resource"" value=""UNKNOWN""/>
			<string key=""Activity"" value=""decide""/>
			<string key=""Costs"" value=""200""/>
			<string key=""concept:name"" value=""decide""/>
		</event>
		<event>
			<string key=""org:resource"" value=""UNKNOWN""/>
			<date key=""time:timestamp"" value=""2011-01-12T15:44:00.000+01:00""/>
			<string key=""Resource"" value=""UNKNOWN""/>
			<string key=""Activity"" value=""reject request""/>
			<string key=""Costs"" value=""200""/>
			<string key=""concept:name"" value=""reject request""/>
		</event>
	</trace>
</log>
".

Definition anonymize_file (text : pystr) : pystr :=
  match load (F := no_floats) text with
  | Some l => match anonymize l with Ok l => save (F := no_floats) l | Raise _ => [] end
  | None => []
  end.
Definition anonymous_text : pystr := Eval vm_compute in anonymize_file general_example.
(** Python wrote the time zone UTC as UTC+00:00 before version 3.6, which the library turns
    into Z, and as UTC since, which it turns into nothing (XAttributeTimestamp.py:90-98). *)
Example anonymous_as_recorded :
  differences anonymous_text general_example_anonymous =
  [(tabs 2 ++ py "<date key=""time:timestamp"" value=""2011-04-13T14:02:31.199""/>",
    tabs 2 ++ py "<date key=""time:timestamp"" value=""2011-04-13T14:02:31.199Z""/>")]
  /\ same_number_of_lines anonymous_text general_example_anonymous = true.
Proof. vm_compute. auto. Qed.

(** ** Csv_to_xes_file.py *)

(** example/xes_file/csv_file.csv *)
Definition csv_file : pystr := py "Case ID;Event ID;dd-MM-yyyy:HH.mm;Activity;Resource;Costs
1;35654423;30-12-2010:11.02;register request;Pete;50
1;35654424;31-12-2010:10.06;examine thoroughly;Sue;400
1;35654425;05-01-2011:15.12;check ticket;Mike;100
1;35654426;06-01-2011:11.18;decide;Sara;200
1;35654427;07-01-2011:14.24;reject request;Pete;200
2;35654483;30-12-2010:11.32;register request;Mike;50
2;35654485;30-12-2010:12.12;check ticket;Mike;100
2;35654487;30-12-2010:14.16;examine casually;Sean;400
2;35654488;05-01-2011:11.22;decide;Sara;200
2;35654489;08-01-2011:12.05;pay compensation;Ellen;200
3;35654521;30-12-2010:14.32;register request;Pete;50
3;35654522;30-12-2010:15.06;examine casually;Mike;400
3;35654524;30-12-2010:16.34;check ticket;Ellen;100
3;35654525;06-01-2011:09.18;decide;Sara;200
3;35654526;06-01-2011:12.18;reinitiate request;Sara;200
3;35654527;06-01-2011:13.06;examine thoroughly;Sean;400
3;35654530;08-01-2011:11.43;check ticket;Pete;100
3;35654531;09-01-2011:09.55;decide;Sara;200
3;35654533;15-01-2011:10.45;pay compensation;Ellen;200
4;35654641;06-01-2011:15.02;register request;Pete;50
4;35654643;07-01-2011:12.06;check ticket;Mike;100
4;35654644;08-01-2011:14.43;examine thoroughly;Sean;400
4;35654645;09-01-2011:12.02;decide;Sara;200
4;35654647;12-01-2011:15.44;reject request;Ellen;200
5;35654711;06-01-2011:09.02;register request;Ellen;50
5;35654712;07-01-2011:10.16;examine casually;Mike;400
5;35654714;08-01-2011:11.22;check ticket;Pete;100
5;35654715;10-01-2011:13.28;decide;Sara;200
5;35654716;11-01-2011:16.18;reinitiate request;Sara;200
5;35654718;14-01-2011:14.33;check ticket;Ellen;100
5;35654719;16-01-2011:15.50;examine casually;Mike;400
5;35654720;19-01-2011:11.18;decide;Sara;200
5;35654721;20-01-2011:12.48;reinitiate request;Sara;200
5;35654722;21-01-2011:09.06;examine casually;Sue;400
5;35654724;21-01-2011:11.34;check ticket;Pete;100
5;35654725;23-01-2011:13.12;decide;Sara;200
5;35654726;24-01-2011:14.56;reject request;Mike;200
6;35654871;06-01-2011:15.02;register request;Mike;50
6;35654873;06-01-2011:16.06;examine casually;Ellen;400
6;35654874;07-01-2011:16.22;check ticket;Mike;100
6;35654875;07-01-2011:16.52;decide;Sara;200
6;35654877;16-01-2011:11.47;pay compensation;Mike;200
7;44100000;15-01-2011:12.00;register request;Mike;50
7;44100001;16-01-2011:12.00;examine thoroughly;Sean;400
7;44100002;17-01-2011:12.00;decide;Sara;200
7;44100003;18-01-2011:12.00;pay compensation;Ellen;200
8;44200000;19-01-2011:12.00;register request;Mike;50
8;44200001;20-01-2011:12.00;examine thoroughly;Sean;400
8;44200002;21-01-2011:12.00;check ticket;Pete;100
8;44200003;22-01-2011:12.00;decide;Sara;200
9;45654711;06-01-2011:09.02;register request;Ellen;50
9;45654712;07-01-2011:10.16;check ticket;Pete;100
9;45654714;08-01-2011:11.22;examine casually;Mike;400
9;45654715;10-01-2011:13.28;decide;Sara;200
9;45654716;11-01-2011:16.18;reinitiate request;Sara;200
9;45654718;14-01-2011:14.33;check ticket;Ellen;100
9;45654719;16-01-2011:15.50;examine casually;Mike;400
9;45654720;19-01-2011:11.18;decide;Sara;200
9;45654721;20-01-2011:12.48;reinitiate request;Sara;200
9;45654722;21-01-2011:09.06;examine thoroughly;Sean;400
9;45654724;21-01-2011:11.34;check ticket;Pete;100
9;45654725;23-01-2011:13.12;decide;Sara;200
9;45654726;24-01-2011:14.56;reject request;Mike;200
10;55654521;30-12-2010:14.32;register request;Pete;50
10;55654522;30-12-2010:15.06;examine casually;Mike;400
10;55654524;30-12-2010:16.34;check ticket;Ellen;100
10;55654525;06-01-2011:09.18;decide;Sara;200
10;55654526;06-01-2011:12.18;reinitiate request;Sara;200
10;55654527;06-01-2011:13.06;examine thoroughly;Sean;400
10;55654530;08-01-2011:11.43;check ticket;Pete;100
10;55654533;15-01-2011:10.45;pay compensation;Ellen;200
".
(** example/xes_file/csv_log_in_xes_format.xes *)
Definition csv_log_in_xes_format : pystr := py "<?xml version=""1.0"" ?>
<!--This file has been generated with the OpenXES library. It conforms-->
<!--to the XML serialization of the XES standard for log storage and-->
<!--management.-->
<!--XES standard version: 1.0-->
<!--OpenXES library version: 1.0RC7-->
<!--OpenXES is available from http://www.openxes.org/-->
<log openxes.version=""1.0RC7"" xes.features=""nested-attributes"" xes.version=""1.0"">
	<trace>
		<event>
			<string key=""Resource"" value=""Pete""/>
			<string key=""Activity"" value=""register request""/>
			<date key=""time"" value=""2010-12-30T11:02:00.000Z""/>
			<int key=""Costs"" value=""50""/>
		</event>
		<event>
			<string key=""Resource"" value=""Sue""/>
			<string key=""Activity"" value=""examine thoroughly""/>
			<date key=""time"" value=""2010-12-31T10:06:00.000Z""/>
			<int key=""Costs"" value=""400""/>
		</event>
		<event>
			<string key=""Resource"" value=""Mike""/>
			<string key=""Activity"" value=""check ticket""/>
			<date key=""time"" value=""2011-01-05T15:12:00.000Z""/>
			<int key=""Costs"" value=""100""/>
		</event>
		<event>
			<string key=""Resource"" value=""Sara""/>
			<string key=""Activity"" value=""decide""/>
			<date key=""time"" value=""2011-01-06T11:18:00.000Z""/>
			<int key=""Costs"" value=""200""/>
		</event>
		<event>
			<string key=""Resource"" value=""Pete""/>
			<string key=""Activity"" value=""reject request""/>
			<date key=""time"" value=""2011-01-07T14:24:00.000Z""/>
			<int key=""Costs"" value=""200""/>
		</event>
	</trace>
	<trace>
		<event>
			<string key=""Resource"" value=""Mike""/>
			<string key=""Activity"" value=""register request""/>
			<date key=""time"" value=""2010-12-30T11:32:00.000Z""/>
			<int key=""Costs"" value=""50""/>
		</event>
	</trace>
	<trace>
		<event>
			<string key=""Resource"" value=""Mike""/>
			<string key=""Activity"" value=""check ticket""/>
			<date key=""time"" value=""2010-12-30T12:12:00.000Z""/>
			<int key=""Costs"" value=""100""/>
		</event>
	</trace>
	<trace>
		<event>
			<string key=""Resource"" value=""Sean""/>
			<string key=""Activity"" value=""examine casually""/>
			<date key=""time"" value=""2010-12-30T14:16:00.000Z""/>
			<int key=""Costs"" value=""400""/>
		</event>
	</trace>
	<trace>
		<event>
			<string key=""Resource"" value=""Sara""/>
			<string key=""Activity"" value=""decide""/>
			<date key=""time"" value=""2011-01-05T11:22:00.000Z""/>
			<int key=""Costs"" value=""200""/>
		</event>
	</trace>
	<trace>
		<event>
			<string key=""Resource"" value=""Ellen""/>
			<string key=""Activity"" value=""pay compensation""/>
			<date key=""time"" value=""2011-01-08T12:05:00.000Z""/>
			<int key=""Costs"" value=""200""/>
		</event>
	</trace>
	<trace>
		<event>
			<string key=""Resource"" value=""Pete""/>
			<string key=""Activity"" value=""register request""/>
			<date key=""time"" value=""2010-12-30T14:32:00.000Z""/>
			<int key=""Costs"" value=""50""/>
		</event>
	</trace>
	<trace>
		<event>
			<string key=""Resource"" value=""Mike""/>
			<string key=""Activity"" value=""examine casually""/>
			<date key=""time"" value=""2010-12-30T15:06:00.000Z""/>
			<int key=""Costs"" value=""400""/>
		</event>
	</trace>
	<trace>
		<event>
			<string key=""Resource"" value=""Ellen""/>
			<string key=""Activity"" value=""check ticket""/>
			<date key=""time"" value=""2010-12-30T16:34:00.000Z""/>
			<int key=""Costs"" value=""100""/>
		</event>
	</trace>
	<trace>
		<event>
			<string key=""Resource"" value=""Sara""/>
			<string key=""Activity"" value=""decide""/>
			<date key=""time"" value=""2011-01-06T09:18:00.000Z""/>
			<int key=""Costs"" value=""200""/>
		</event>
	</trace>
	<trace>
		<event>
			<string key=""Resource"" value=""Sara""/>
			<string key=""Activity"" value=""reinitiate request""/>
			<date key=""time"" value=""2011-01-06T12:18:00.000Z""/>
			<int key=""Costs"" value=""200""/>
		</event>
	</trace>
	<trace>
		<event>
			<string key=""Resource"" value=""Sean""/>
			<string key=""Activity"" value=""examine thoroughly""/>
			<date key=""time"" value=""2011-01-06T13:06:00.000Z""/>
			<int key=""Costs"" value=""400""/>
		</event>
	</trace>
	<trace>
		<event>
			<string key=""Resource"" value=""Pete""/>
			<string key=""Activity"" value=""check ticket""/>
			<date key=""time"" value=""2011-01-08T11:43:00.000Z""/>
			<int key=""Costs"" value=""100""/>
		</event>
	</trace>
	<trace>
		<event>
			<string key=""Resource"" value=""Sara""/>
			<string key=""Activity"" value=""decide""/>
			<date key=""time"" value=""2011-01-09T09:55:00.000Z""/>
			<int key=""Costs"" value=""200""/>
		</event>
	</trace>
	<trace>
		<event>
			<string key=""Resource"" value=""Ellen""/>
			<string key=""Activity"" value=""pay compensation""/>
			<date key=""time"" value=""2011-01-15T10:45:00.000Z""/>
			<int key=""Costs"" value=""200""/>
		</event>
	</trace>
	<trace>
		<event>
			<string key=""Resource"" value=""Pete""/>
			<string key=""Activity"" value=""register request""/>
			<date key=""time"" value=""2011-01-06T15:02:00.000Z""/>
			<int key=""Costs"" value=""50""/>
		</event>
	</trace>
	<trace>
		<event>
			<string key=""Resource"" value=""Mike""/>
			<string key=""Activity"" value=""check ticket""/>
			<date key=""time"" value=""2011-01-07T12:06:00.000Z""/>
			<int key=""Costs"" value=""100""/>
		</event>
	</trace>
	<trace>
		<event>
			<string key=""Resource"" value=""Sean""/>
			<string key=""Activity"" value=""examine thoroughly""/>
			<date key=""time"" value=""2011-01-08T14:43:00.000Z""/>
			<int key=""Costs"" value=""400""/>
		</event>
	</trace>
	<trace>
		<event>
			<string key=""Resource"" value=""Sara""/>
			<string key=""Activity"" value=""decide""/>
			<date key=""time"" value=""2011-01-09T12:02:00.000Z""/>
			<int key=""Costs"" value=""200""/>
		</event>
	</trace>
	<trace>
		<event>
			<string key=""Resource"" value=""Ellen""/>
			<string key=""Activity"" value=""reject request""/>
			<date key=""time"" value=""2011-01-12T15:44:00.000Z""/>
			<int key=""Costs"" value=""200""/>
		</event>
	</trace>
	<trace>
		<event>
			<string key=""Resource"" value=""Ellen""/>
			<string key=""Activity"" value=""register request""/>
			<date key=""time"" value=""2011-01-06T09:02:00.000Z""/>
			<int key=""Costs"" value=""50""/>
		</event>
	</trace>
	<trace>
		<event>
			<string key=""Resource"" value=""Mike""/>
			<string key=""Activity"" value=""examine casually""/>
			<date key=""time"" value=""2011-01-07T10:16:00.000Z""/>
			<int key=""Costs"" value=""400""/>
		</event>
	</trace>
	<trace>
		<event>
			<string key=""Resource"" value=""Pete""/>
			<string key=""Activity"" value=""check ticket""/>
			<date key=""time"" value=""2011-01-08T11:22:00.000Z""/>
			<int key=""Costs"" value=""100""/>
		</event>
	</trace>
	<trace>
		<event>
			<string key=""Resource"" value=""Sara""/>
			<string key=""Activity"" value=""decide""/>
			<date key=""time"" value=""2011-01-10T13:28:00.000Z""/>
			<int key=""Costs"" value=""200""/>
		</event>
	</trace>
	<trace>
		<event>
			<string key=""Resource"" value=""Sara""/>
			<string key=""Activity"" value=""reinitiate request""/>
			<date key=""time"" value=""2011-01-11T16:18:00.000Z""/>
			<int key=""Costs"" value=""200""/>
		</event>
	</trace>
	<trace>
		<event>
			<string key=""Resource"" value=""Ellen""/>
			<string key=""Activity"" value=""check ticket""/>
			<date key=""time"" value=""2011-01-14T14:33:00.000Z""/>
			<int key=""Costs"" value=""100""/>
		</event>
	</trace>
	<trace>
		<event>
			<string key=""Resource"" value=""Mike""/>
			<string key=""Activity"" value=""examine casually""/>
			<date key=""time"" value=""2011-01-16T15:50:00.000Z""/>
			<int key=""Costs"" value=""400""/>
		</event>
	</trace>
	<trace>
		<event>
			<string key=""Resource"" value=""Sara""/>
			<string key=""Activity"" value=""decide""/>
			<date key=""time"" value=""2011-01-19T11:18:00.000Z""/>
			<int key=""Costs"" value=""200""/>
		</event>
	</trace>
	<trace>
		<event>
			<string key=""Resource"" value=""Sara""/>
			<string key=""Activity"" value=""reinitiate request""/>
			<date key=""time"" value=""2011-01-20T12:48:00.000Z""/>
			<int key=""Costs"" value=""200""/>
		</event>
	</trace>
	<trace>
		<event>
			<string key=""Resource"" value=""Sue""/>
			<string key=""Activity"" value=""examine casually""/>
			<date key=""time"" value=""2011-01-21T09:06:00.000Z""/>
			<int key=""Costs"" value=""400""/>
		</event>
	</trace>
	<trace>
		<event>
			<string key=""Resource"" value=""Pete""/>
			<string key=""Activity"" value=""check ticket""/>
			<date key=""time"" value=""2011-01-21T11:34:00.000Z""/>
			<int key=""Costs"" value=""100""/>
		</event>
	</trace>
	<trace>
		<event>
			<string key=""Resource"" value=""Sara""/>
			<string key=""Activity"" value=""decide""/>
			<date key=""time"" value=""2011-01-23T13:12:00.000Z""/>
			<int key=""Costs"" value=""200""/>
		</event>
	</trace>
	<trace>
		<event>
			<string key=""Resource"" value=""Mike""/>
			<string key=""Activity"" value=""reject request""/>
			<date key=""time"" value=""2011-01-24T14:56:00.000Z""/>
			<int key=""Costs"" value=""200""/>
		</event>
	</trace>
	<trace>
		<event>
			<string key=""Resource"" value=""Mike""/>
			<string key=""Activity"" value=""register request""/>
			<date key=""time"" value=""2011-01-06T15:02:00.000Z""/>
			<int key=""Costs"" value=""50""/>
		</event>
	</trace>
	<trace>
		<event>
			<string key=""Resource"" value=""Ellen""/>
			<string key=""Activity"" value=""examine casually""/>
			<date key=""time"" value=""2011-01-06T16:06:00.000Z""/>
			<int key=""Costs"" value=""400""/>
		</event>
	</trace>
	<trace>
		<event>
			<string key=""Resource"" value=""Mike""/>
			<string key=""Activity"" value=""check ticket""/>
			<date key=""time"" value=""2011-01-07T16:22:00.000Z""/>
			<int key=""Costs"" value=""100""/>
		</event>
	</trace>
	<trace>
		<event>
			<string key=""Resource"" value=""Sara""/>
			<string key=""Activity"" value=""decide""/>
			<date key=""time"" value=""2011-01-07T16:52:00.000Z""/>
			<int key=""Costs"" value=""200""/>
		</event>
	</trace>
	<trace>
		<event>
			<string key=""Resource"" value=""Mike""/>
			<string key=""Activity"" value=""pay compensation""/>
			<date key=""time"" value=""2011-01-16T11:47:00.000Z""/>
			<int key=""Costs"" value=""200""/>
		</event>
	</trace>
	<trace>
		<event>
			<string key=""Resource"" value=""Mike""/>
			<string key=""Activity"" value=""register request""/>
			<date key=""time"" value=""2011-01-15T12:00:00.000Z""/>
			<int key=""Costs"" value=""50""/>
		</event>
	</trace>
	<trace>
		<event>
			<string key=""Resource"" value=""Sean""/>
			<string key=""Activity"" value=""examine thoroughly""/>
			<date key=""time"" value=""2011-01-16T12:00:00.000Z""/>
			<int key=""Costs"" value=""400""/>
		</event>
	</trace>
	<trace>
		<event>
			<string key=""Resource"" value=""Sara""/>
			<string key=""Activity"" value=""decide""/>
			<date key=""time"" value=""2011-01-17T12:00:00.000Z""/>
			<int key=""Costs"" value=""200""/>
		</event>
	</trace>
	<trace>
		<event>
			<string key=""Resource"" value=""Ellen""/>
			<string key=""Activity"" value=""pay compensation""/>
			<date key=""time"" value=""2011-01-18T12:00:00.000Z""/>
			<int key=""Costs"" value=""200""/>
		</event>
	</trace>
	<trace>
		<event>
			<string key=""Resource"" value=""Mike""/>
			<string key=""Activity"" value=""register request""/>
			<date key=""time"" value=""2011-01-19T12:00:00.000Z""/>
			<int key=""Costs"" value=""50""/>
		</event>
	</trace>
	<trace>
		<event>
			<string key=""Resource"" value=""Sean""/>
			<string key=""Activity"" value=""examine thoroughly""/>
			<date key=""time"" value=""2011-01-20T12:00:00.000Z""/>
			<int key=""Costs"" value=""400""/>
		</event>
	</trace>
	<trace>
		<event>
			<string key=""Resource"" value=""Pete""/>
			<string key=""Activity"" value=""check ticket""/>
			<date key=""time"" value=""2011-01-21T12:00:00.000Z""/>
			<int key=""Costs"" value=""100""/>
		</event>
	</trace>
	<trace>
		<event>
			<string key=""Resource"" value=""Sara""/>
			<string key=""Activity"" value=""decide""/>
			<date key=""time"" value=""2011-01-22T12:00:00.000Z""/>
			<int key=""Costs"" value=""200""/>
		</event>
	</trace>
	<trace>
		<event>
			<string key=""Resource"" value=""Ellen""/>
			<string key=""Activity"" value=""register request""/>
			<date key=""time"" value=""2011-01-06T09:02:00.000Z""/>
			<int key=""Costs"" value=""50""/>
		</event>
	</trace>
	<trace>
		<event>
			<string key=""Resource"" value=""Pete""/>
			<string key=""Activity"" value=""check ticket""/>
			<date key=""time"" value=""2011-01-07T10:16:00.000Z""/>
			<int key=""Costs"" value=""100""/>
		</event>
	</trace>
	<trace>
		<event>
			<string key=""Resource"" value=""Mike""/>
			<string key=""Activity"" value=""examine casually""/>
			<date key=""time"" value=""2011-01-08T11:22:00.000Z""/>
			<int key=""Costs"" value=""400""/>
		</event>
	</trace>
	<trace>
		<event>
			<string key=""Resource"" value=""Sara""/>
			<string key=""Activity"" value=""decide""/>
			<date key=""time"" value=""2011-01-10T13:28:00.000Z""/>
			<int key=""Costs"" value=""200""/>
		</event>
	</trace>
	<trace>
		<event>
			<string key=""Resource"" value=""Sara""/>
			<string key=""Activity"" value=""reinitiate request""/>
			<date key=""time"" value=""2011-01-11T16:18:00.000Z""/>
			<int key=""Costs"" value=""200""/>
		</event>
	</trace>
	<trace>
		<event>
			<string key=""Resource"" value=""Ellen""/>
			<string key=""Activity"" value=""check ticket""/>
			<date key=""time"" value=""2011-01-14T14:33:00.000Z""/>
			<int key=""Costs"" value=""100""/>
		</event>
	</trace>
	<trace>
		<event>
			<string key=""Resource"" value=""Mike""/>
			<string key=""Activity"" value=""examine casually""/>
			<date key=""time"" value=""2011-01-16T15:50:00.000Z""/>
			<int key=""Costs"" value=""400""/>
		</event>
	</trace>
	<trace>
		<event>
			<string key=""Resource"" value=""Sara""/>
			<string key=""Activity"" value=""decide""/>
			<date key=""time"" value=""2011-01-19T11:18:00.000Z""/>
			<int key=""Costs"" value=""200""/>
		</event>
	</trace>
	<trace>
		<event>
			<string key=""Resource"" value=""Sara""/>
			<string key=""Activity"" value=""reinitiate request""/>
			<date key=""time"" value=""2011-01-20T12:48:00.000Z""/>
			<int key=""Costs"" value=""200""/>
		</event>
	</trace>
	<trace>
		<event>
			<string key=""Resource"" value=""Sean""/>
			<string key=""Activity"" value=""examine thoroughly""/>
			<date key=""time"" value=""2011-01-21T09:06:00.000Z""/>
			<int key=""Costs"" value=""400""/>
		</event>
	</trace>
	<trace>
		<event>
			<string key=""Resource"" value=""Pete""/>
			<string key=""Activity"" value=""check ticket""/>
			<date key=""time"" value=""2011-01-21T11:34:00.000Z""/>
			<int key=""Costs"" value=""100""/>
		</event>
	</trace>
	<trace>
		<event>
			<string key=""Resource"" value=""Sara""/>
			<string key=""Activity"" value=""decide""/>
			<date key=""time"" value=""2011-01-23T13:12:00.000Z""/>
			<int key=""Costs"" value=""200""/>
		</event>
	</trace>
	<trace>
		<event>
			<string key=""Resource"" value=""Mike""/>
			<string key=""Activity"" value=""reject request""/>
			<date key=""time"" value=""2011-01-24T14:56:00.000Z""/>
			<int key=""Costs"" value=""200""/>
		</event>
	</trace>
	<trace>
		<event>
			<string key=""Resource"" value=""Pete""/>
			<string key=""Activity"" value=""register request""/>
			<date key=""time"" value=""2010-12-30T14:32:00.000Z""/>
			<int key=""Costs"" value=""50""/>
		</event>
	</trace>
	<trace>
		<event>
			<string key=""Resource"" value=""Mike""/>
			<string key=""Activity"" value=""examine casually""/>
			<date key=""time"" value=""2010-12-30T15:06:00.000Z""/>
			<int key=""Costs"" value=""400""/>
		</event>
	</trace>
	<trace>
		<event>
			<string key=""Resource"" value=""Ellen""/>
			<string key=""Activity"" value=""check ticket""/>
			<date key=""time"" value=""2010-12-30T16:34:00.000Z""/>
			<int key=""Costs"" value=""100""/>
		</event>
	</trace>
	<trace>
		<event>
			<string key=""Resource"" value=""Sara""/>
			<string key=""Activity"" value=""decide""/>
			<date key=""time"" value=""2011-01-06T09:18:00.000Z""/>
			<int key=""Costs"" value=""200""/>
		</event>
	</trace>
	<trace>
		<event>
			<string key=""Resource"" value=""Sara""/>
			<string key=""Activity"" value=""reinitiate request""/>
			<date key=""time"" value=""2011-01-06T12:18:00.000Z""/>
			<int key=""Costs"" value=""200""/>
		</event>
	</trace>
	<trace>
		<event>
			<string key=""Resource"" value=""Sean""/>
			<string key=""Activity"" value=""examine thoroughly""/>
			<date key=""time"" value=""2011-01-06T13:06:00.000Z""/>
			<int key=""Costs"" value=""400""/>
		</event>
	</trace>
	<trace>
		<event>
			<string key=""Resource"" value=""Pete""/>
			<string key=""Activity"" value=""check ticket""/>
			<date key=""time"" value=""2011-01-08T11:43:00.000Z""/>
			<int key=""Costs"" value=""100""/>
		</event>
	</trace>
</log>
".

(** [datetime.strptime] for the format of the file, without its checks. *)
Definition num (s : pystr) : Z := match py_int 10 s with Some z => z | None => 0%Z end.
Definition csv_date (text format : pystr) : option datetime :=
  if str_eqb format (py "%d-%m-%Y:%H.%M") then
    Some (mk_dt (num (firstn 4 (skipn 6 text))) (num (firstn 2 (skipn 3 text))) (num (firstn 2 text))
                (num (firstn 2 (skipn 11 text))) (num (skipn 14 text)) 0 0 None)
  else None.
Definition convert_csv (text : pystr) : pystr :=
  match csv_log csv_date N.of_nat text with Ok l => save (F := no_floats) l | Raise _ => [] end.
Definition csv_text : pystr := Eval vm_compute in convert_csv csv_file.
Example csv_as_recorded : differences csv_text csv_log_in_xes_format = []
  /\ same_number_of_lines csv_text csv_log_in_xes_format = true.
Proof. vm_compute. auto. Qed.

(** ** Create_random_log.py *)

(** example/xes_file/random_log.xes *)
Definition random_log : pystr := py "<?xml version=""1.0"" ?>
<!--This file has been generated with the OpenXES library. It conforms-->
<!--to the XML serialization of the XES standard for log storage and-->
<!--management.-->
<!--XES standard version: 1.0-->
<!--OpenXES library version: 1.0RC7-->
<!--OpenXES is available from http://www.openxes.org/-->
<log openxes.version=""1.0RC7"" xes.features=""nested-attributes"" xes.version=""1.0"">
	<trace>
		<event>
			<int key=""int"" value=""0""/>
			<date key=""date"" value=""1969-12-31T21:00:00.000Z""/>
			<boolean key=""boolean"" value=""true""/>
		</event>
		<event>
			<int key=""int"" value=""0""/>
			<boolean key=""boolean"" value=""true""/>
			<list key=""list""/>
		</event>
		<event>
			<int key=""int"" value=""0""/>
			<list key=""list""/>
			<container key=""container""/>
			<boolean key=""boolean"" value=""true""/>
		</event>
		<event>
			<int key=""int"" value=""0""/>
			<id key=""id"" value=""1DAFE5D9-CCAB-4659-A69A-C1AC449D6515""/>
			<boolean key=""boolean"" value=""true""/>
			<container key=""container""/>
		</event>
		<event>
			<float key=""float"" value=""0.0""/>
			<container key=""container""/>
			<boolean key=""boolean"" value=""true""/>
		</event>
	</trace>
	<trace>
		<event>
			<int key=""int"" value=""0""/>
			<float key=""float"" value=""0.0""/>
			<id key=""id"" value=""06127AD9-11D1-42C4-81EA-AF506B2FCFB3""/>
			<container key=""container""/>
		</event>
		<event>
			<float key=""float"" value=""0.0""/>
			<boolean key=""boolean"" value=""true""/>
		</event>
		<event>
			<date key=""date"" value=""1969-12-31T21:00:00.000Z""/>
			<id key=""id"" value=""372DE8D0-5AA7-4A88-A5FE-EA958F5FD316""/>
			<string key=""string"" value=""UNKNOWN""/>
		</event>
		<event>
			<boolean key=""boolean"" value=""true""/>
			<date key=""date"" value=""1969-12-31T21:00:00.000Z""/>
			<list key=""list""/>
		</event>
		<event>
			<float key=""float"" value=""0.0""/>
			<container key=""container""/>
			<list key=""list""/>
		</event>
		<event>
			<int key=""int"" value=""0""/>
			<container key=""container""/>
			<string key=""string"" value=""UNKNOWN""/>
		</event>
	</trace>
	<trace>
		<event>
			<int key=""int"" value=""0""/>
			<float key=""float"" value=""0.0""/>
			<id key=""id"" value=""AF69337D-47CB-4649-AEC4-F67DB4AB8C24""/>
			<list key=""list""/>
		</event>
		<event>
			<date key=""date"" value=""1969-12-31T21:00:00.000Z""/>
			<container key=""container""/>
			<boolean key=""boolean"" value=""true""/>
			<float key=""float"" value=""0.0""/>
		</event>
		<event>
			<date key=""date"" value=""1969-12-31T21:00:00.000Z""/>
			<id key=""id"" value=""24DF418E-CA3F-4D31-86B8-8159A940DEA5""/>
			<container key=""container""/>
			<float key=""float"" value=""0.0""/>
		</event>
		<event>
			<float key=""float"" value=""0.0""/>
			<container key=""container""/>
			<string key=""string"" value=""UNKNOWN""/>
			<list key=""list""/>
		</event>
	</trace>
	<trace>
		<event>
			<int key=""int"" value=""0""/>
			<container key=""container""/>
			<list key=""list""/>
		</event>
		<event>
			<int key=""int"" value=""0""/>
			<date key=""date"" value=""1969-12-31T21:00:00.000Z""/>
			<id key=""id"" value=""852EED26-0CA2-434C-AF11-F02BFF5700A4""/>
		</event>
		<event>
			<string key=""string"" value=""UNKNOWN""/>
			<list key=""list""/>
		</event>
		<event>
			<container key=""container""/>
			<string key=""string"" value=""UNKNOWN""/>
			<boolean key=""boolean"" value=""true""/>
			<id key=""id"" value=""76E1D692-2E16-442E-9848-7CB41A6FE3FA""/>
		</event>
		<event>
			<float key=""float"" value=""0.0""/>
			<container key=""container""/>
			<boolean key=""boolean"" value=""true""/>
			<id key=""id"" value=""B8CB2EEF-9E04-430C-8A3A-7F055439B24E""/>
		</event>
	</trace>
	<trace>
		<event>
			<float key=""float"" value=""0.0""/>
			<string key=""string"" value=""UNKNOWN""/>
			<boolean key=""boolean"" value=""true""/>
		</event>
		<event>
			<int key=""int"" value=""0""/>
			<list key=""list""/>
			<container key=""container""/>
			<boolean key=""boolean"" value=""true""/>
		</event>
		<event>
			<date key=""date"" value=""1969-12-31T21:00:00.000Z""/>
			<string key=""string"" value=""UNKNOWN""/>
			<boolean key=""boolean"" value=""true""/>
			<float key=""float"" value=""0.0""/>
		</event>
		<event>
			<float key=""float"" value=""0.0""/>
			<container key=""container""/>
			<id key=""id"" value=""CAB020D6-B8F1-4ECC-B555-27DB032E03AE""/>
		</event>
		<event>
			<int key=""int"" value=""0""/>
			<id key=""id"" value=""A04AE215-BE02-4D25-BB63-21823877AAF1""/>
			<string key=""string"" value=""UNKNOWN""/>
			<boolean key=""boolean"" value=""true""/>
		</event>
		<event>
			<int key=""int"" value=""0""/>
			<id key=""id"" value=""D0A63476-D6CC-41D1-AD8E-5D798035A998""/>
			<list key=""list""/>
			<container key=""container""/>
		</event>
	</trace>
	<trace>
		<event>
			<id key=""id"" value=""56CA5381-1A54-4E8D-B40F-DC811B45C0FE""/>
			<list key=""list""/>
			<container key=""container""/>
		</event>
		<event>
			<int key=""int"" value=""0""/>
			<date key=""date"" value=""1969-12-31T21:00:00.000Z""/>
			<string key=""string"" value=""UNKNOWN""/>
			<list key=""list""/>
		</event>
		<event>
			<container key=""container""/>
			<string key=""string"" value=""UNKNOWN""/>
			<id key=""id"" value=""D70455D5-7119-473B-B4AA-86795AEF92F3""/>
		</event>
	</trace>
	<trace>
		<event>
			<float key=""float"" value=""0.0""/>
			<container key=""container""/>
			<list key=""list""/>
			<id key=""id"" value=""F980CB45-429C-4F32-B971-C6F8664F6B02""/>
		</event>
		<event>
			<int key=""int"" value=""0""/>
			<float key=""float"" value=""0.0""/>
			<container key=""container""/>
		</event>
		<event>
			<float key=""float"" value=""0.0""/>
			<string key=""string"" value=""UNKNOWN""/>
			<list key=""list""/>
			<date key=""date"" value=""1969-12-31T21:00:00.000Z""/>
		</event>
		<event>
			<float key=""float"" value=""0.0""/>
			<container key=""container""/>
			<list key=""list""/>
		</event>
		<event>
			<int key=""int"" value=""0""/>
			<date key=""date"" value=""1969-12-31T21:00:00.000Z""/>
			<string key=""string"" value=""UNKNOWN""/>
		</event>
		<event>
			<date key=""date"" value=""1969-12-31T21:00:00.000Z""/>
			<container key=""container""/>
			<boolean key=""boolean"" value=""true""/>
		</event>
		<event>
			<int key=""int"" value=""0""/>
			<float key=""float"" value=""0.0""/>
			<string key=""string"" value=""UNKNOWN""/>
			<date key=""date"" value=""1969-12-31T21:00:00.000Z""/>
		</event>
	</trace>
	<trace>
		<event>
			<boolean key=""boolean"" value=""true""/>
			<container key=""container""/>
			<string key=""string"" value=""UNKNOWN""/>
			<list key=""list""/>
		</event>
		<event>
			<id key=""id"" value=""9DB32FCF-75ED-4FB3-9CE1-9C62E5E8F2DF""/>
			<list key=""list""/>
			<container key=""container""/>
		</event>
		<event>
			<date key=""date"" value=""1969-12-31T21:00:00.000Z""/>
			<id key=""id"" value=""20C0F663-A6CE-4DD5-B9B0-10A7E8D0C382""/>
			<string key=""string"" value=""UNKNOWN""/>
			<list key=""list""/>
		</event>
	</trace>
	<trace>
		<event>
			<int key=""int"" value=""0""/>
			<id key=""id"" value=""B41086A5-24CB-4DCE-BCFA-1F00A5648A1F""/>
			<string key=""string"" value=""UNKNOWN""/>
			<container key=""container""/>
		</event>
		<event>
			<int key=""int"" value=""0""/>
			<float key=""float"" value=""0.0""/>
			<container key=""container""/>
			<list key=""list""/>
		</event>
		<event>
			<int key=""int"" value=""0""/>
			<id key=""id"" value=""291E1E6E-8C01-4D33-BCDE-FB622A642702""/>
			<string key=""string"" value=""UNKNOWN""/>
			<boolean key=""boolean"" value=""true""/>
		</event>
		<event>
			<float key=""float"" value=""0.0""/>
			<id key=""id"" value=""227019A8-F0A3-4817-AA55-A981EE7F4D09""/>
			<list key=""list""/>
			<container key=""container""/>
		</event>
		<event>
			<int key=""int"" value=""0""/>
			<float key=""float"" value=""0.0""/>
			<container key=""container""/>
			<string key=""string"" value=""UNKNOWN""/>
		</event>
		<event>
			<int key=""int"" value=""0""/>
			<date key=""date"" value=""1969-12-31T21:00:00.000Z""/>
			<container key=""container""/>
			<float key=""float"" value=""0.0""/>
		</event>
	</trace>
	<trace>
		<event>
			<float key=""float"" value=""0.0""/>
			<container key=""container""/>
			<list key=""list""/>
		</event>
		<event>
			<date key=""date"" value=""1969-12-31T21:00:00.000Z""/>
			<container key=""container""/>
			<float key=""float"" value=""0.0""/>
		</event>
		<event>
			<float key=""float"" value=""0.0""/>
			<container key=""container""/>
			<boolean key=""boolean"" value=""true""/>
		</event>
	</trace>
</log>
".

(** The only float in the file is 0.0. *)
Definition zero_float : FloatIO :=
  {| float_repr := fun _ => py "0.0";
     float_of_str := fun s => if str_eqb s (py "0.0") then Some (S754_zero false) else None |}.
(** Reading the file and writing it again; dates lose their Z, as above. *)
Definition rewrite (text : pystr) : pystr :=
  match load (F := zero_float) text with Some l => save (F := zero_float) l | None => [] end.
Definition random_text : pystr := Eval vm_compute in rewrite random_log.
Definition zone_lost (p : pystr * pystr) : bool :=
  contains (py "<date ") (snd p) && str_eqb (fst p) (replace [90; 34]%N [34%N] (snd p)).
Example random_as_recorded : forallb zone_lost (differences random_text random_log) = true
  /\ List.length (differences random_text random_log) = 15
  /\ same_number_of_lines random_text random_log = true.
Proof. vm_compute. auto. Qed.
