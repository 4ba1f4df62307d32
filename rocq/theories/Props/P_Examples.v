(** Theorems on the log transformations of the examples: C65-C68. *)
From Coq Require Import String NArith ZArith List Bool Permutation.
From Verif Require Import Base.PyBase Base.PyDate Base.PyVal Model.Attr Model.Log
  Model.Classify Model.Alpha Model.Examples Spec.Typing Spec.Info Spec.Transform
  Proofs.BaseFacts Proofs.AlphaFacts
  Proofs.ExampleFacts.
Import ListNotations.

#[local] Instance no_fl : FloatIO := no_floats.
#[local] Instance insertion_order' : SetOrder :=
  {| iter := fun A l => l; iter_perm := fun A l => Permutation_refl l |}.

Definition lit (k v : string) : pystr * attr :=
  (py k, mk_attr CLiteral (py k) None (PStr (py v)) [] []).
Definition act (i : N) (v : string) : event := mk_event i [lit "Activity" v].
Definition by_activity : classifier := mk_cl (py "activity") [py "Activity"].
Definition log_of (ts : list trace) : xlog :=
  mk_log [lit "org:resource" "Ann"] ts [] [by_activity] [] [] [].

(** ** C65 *)

(** If every trace of the log has a variant (its events can be identified), the filtered
    log has the traces at the positions where a variant occurs for the first time, in
    order, and keeps all other data of the log. *)
Theorem C65_first_of_each (FIO : FloatIO) c l vs :
  map_res (variant c) (lg_traces l) = Ok vs ->
  exists ps, (forall i, In i ps <-> first_at vs i) /\
    (forall i j, i < j < List.length ps -> nth i ps 0 < nth j ps 0) /\
    filter_log c l
    = Ok (mk_log (lg_attrs l) (map (fun i => nth i (lg_traces l) (mk_trace [] [])) ps)
                 (lg_exts l) (lg_classifiers l) (lg_gtrace l) (lg_gevent l) (lg_features l)).
Proof.
  intros H. destruct (filter_main c l vs H) as (ts & E & (ps & P & O & ->) & _).
  exists ps. auto.
Qed.
Print Assumptions C65_first_of_each.

(** So no two traces of the result are the same variant, and every variant is kept. *)
Theorem C65_variants (FIO : FloatIO) c l vs :
  map_res (variant c) (lg_traces l) = Ok vs ->
  exists l' ws, filter_log c l = Ok l' /\ map_res (variant c) (lg_traces l') = Ok ws /\
    NoDup ws /\ forall v, In v ws <-> In v vs.
Proof.
  intros H. destruct (filter_main c l vs H) as (ts & E & _ & ws & W & N & I).
  eexists. exists ws. split; [exact E |]. auto.
Qed.
Print Assumptions C65_variants.

(** Filtering twice is filtering once. *)
Theorem C65_idempotent (FIO : FloatIO) c l l' :
  (exists vs, map_res (variant c) (lg_traces l) = Ok vs) ->
  filter_log c l = Ok l' -> filter_log c l' = Ok l'.
Proof.
  intros [vs H] F. destruct (filter_main c l vs H) as (ts & E & _ & ws & W & N & _).
  rewrite E in F. injection F as <-.
  destruct (filter_gen c ts ws W [] [] eq_refl) as (r & G & R). cbn in G.
  unfold filter_log, filter_traces. cbn [lg_traces lg_attrs lg_exts lg_classifiers lg_gtrace
    lg_gevent lg_features]. rewrite G. cbn [bind]. do 2 f_equal.
  rewrite R, kept_distinct.
  - pose proof (map_res_length _ _ _ W) as L. clear - L. revert ts L.
    induction ws as [| w ws IH]; intros [| t ts] L; cbn in *; try discriminate; [reflexivity |].
    f_equal. apply IH. now injection L.
  - rewrite map_fst_combine; [exact N |]. exact (map_res_length _ _ _ W).
Qed.
Print Assumptions C65_idempotent.

Definition vlog : xlog := log_of
  [mk_trace [lit "n" "1"] [act 1 "a"; act 2 "b"]; mk_trace [] [act 3 "a"];
   mk_trace [lit "n" "3"] [act 4 "a"; act 5 "b"]; mk_trace [] [act 6 "b"; act 7 "a"]].
Example C65_ex :
  map_res (variant by_activity) (lg_traces vlog)
  = Ok (map (map py) [["a"; "b"]; ["a"]; ["a"; "b"]; ["b"; "a"]]%string) /\
  filter_log by_activity vlog
  = Ok (log_of [mk_trace [lit "n" "1"] [act 1 "a"; act 2 "b"]; mk_trace [] [act 3 "a"];
                mk_trace [] [act 6 "b"; act 7 "a"]]).
Proof. split; reflexivity. Qed.

(** ** C66 *)

(** If all rows can be converted, the log's traces are the groups of rows cut before each
    row whose case is not the case of the first row -- without the last group. *)
Theorem C66_groups (strp : pystr -> pystr -> option datetime) (draw : nat -> N)
  text header r0 rows types es :
  file_lines text = header :: r0 :: rows ->
  types = map column_type (split (py ";") header) ->
  map_res (fun '(i, r) => convert_line strp draw types i (split (py ";") r))
          (combine (seq 0 (S (List.length rows))) (r0 :: rows)) = Ok es ->
  csv_log strp draw text
  = Ok (mk_log [] (map (mk_trace [])
          (removelast (cut (case_of r0) [] (combine (map case_of (r0 :: rows)) es))))
        [] [] [] [] []).
Proof.
  intros F T H. unfold csv_log. now rewrite (csv_main strp draw text header r0 rows types es F T H).
Qed.
Print Assumptions C66_groups.

(** If a row cannot be converted, nothing is written. *)
Theorem C66_raises (strp : pystr -> pystr -> option datetime) (draw : nat -> N)
  text header r0 rows types ex :
  file_lines text = header :: r0 :: rows ->
  types = map column_type (split (py ";") header) ->
  map_res (fun '(i, r) => convert_line strp draw types i (split (py ";") r))
          (combine (seq 0 (S (List.length rows))) (r0 :: rows)) = Raise ex ->
  csv_log strp draw text = Raise ex.
Proof.
  intros F T H. unfold csv_log.
  now rewrite (csv_raises strp draw text header r0 rows types ex F T H).
Qed.
Print Assumptions C66_raises.

(** The events of the log are those of the rows in order, without those of the last
    group, which has at least one row; all traces have events. *)
Theorem C66_events_lost (strp : pystr -> pystr -> option datetime) (draw : nat -> N)
  text header r0 rows types es l :
  file_lines text = header :: r0 :: rows ->
  types = map column_type (split (py ";") header) ->
  map_res (fun '(i, r) => convert_line strp draw types i (split (py ";") r))
          (combine (seq 0 (S (List.length rows))) (r0 :: rows)) = Ok es ->
  csv_log strp draw text = Ok l ->
  (exists lost, lost <> [] /\ es = log_events l ++ lost) /\
  Forall (fun t => tr_events t <> []) (lg_traces l) /\
  (Forall (fun r => case_of r = case_of r0) rows -> lg_traces l = []).
Proof.
  intros F T H G. rewrite (C66_groups strp draw text header r0 rows types es F T H) in G.
  injection G as <-. cbn [lg_traces]. apply map_res_length in H.
  rewrite combine_length, seq_length in H. cbn [List.length] in H. rewrite Nat.min_id in H.
  destruct es as [| e es]; [discriminate |]. injection H as L.
  cbn [map combine cut]. rewrite str_eqb_refl. cbn [app].
  set (g := cut (case_of r0) [e] (combine (map case_of rows) es)).
  assert (N : Forall (fun x => x <> []) g /\ g <> []) by (apply cut_nonempty; discriminate).
  assert (C : List.concat g = e :: es).
  { unfold g. rewrite cut_concat, map_snd_combine; [reflexivity |]. now rewrite map_length. }
  destruct N as [N1 N2]. pose proof (app_removelast_last [] N2) as S.
  assert (LE : log_events (mk_log [] (map (mk_trace []) (removelast g)) [] [] [] [] [])
               = List.concat (removelast g)).
  { unfold log_events. cbn [lg_traces]. generalize (removelast g). intros m.
    rewrite flat_map_concat_map, map_map. cbn [tr_events]. now rewrite map_id. }
  split; [| split].
  - exists (last g []). split.
    + rewrite Forall_forall in N1. apply N1. rewrite S at 2. apply in_app_iff. right. now left.
    + rewrite LE, <- C. rewrite S at 1. rewrite concat_app. cbn. now rewrite app_nil_r.
  - apply Forall_forall. intros t Ht. apply in_map_iff in Ht. destruct Ht as (x & <- & Hx).
    cbn. rewrite Forall_forall in N1. apply N1. rewrite S. apply in_app_iff. now left.
  - intros A. unfold g. rewrite cut_first; [reflexivity |].
    apply Forall_forall. intros [c a] I. cbn. apply in_combine_l in I. apply in_map_iff in I.
    destruct I as (r & <- & I). rewrite Forall_forall in A. now apply A.
Qed.
Print Assumptions C66_events_lost.

(** The cells from the third on become attributes by the titles of their columns; the attribute
    of an event under a key is the one of the last column that gives this key. *)
Theorem C66_fields (strp : pystr -> pystr -> option datetime) (draw : nat -> N)
  types n line e : convert_line strp draw types n line = Ok e ->
  ev_id e = draw n /\
  exists l, Forall2 (fun '(t, s) a => cell_is strp t s a) (combine (skipn 2 types) (skipn 2 line)) l /\
    List.length (skipn 2 line) <= List.length (skipn 2 types) /\
    forall k, sget k (ev_attrs e) = find (fun a => str_eqb k (a_key a)) (rev l).
Proof.
  unfold convert_line. intros H.
  destruct (convert_fields strp (skipn 2 types) (skipn 2 line) []) as [m |] eqn:E; [| discriminate].
  injection H as <-. split; [reflexivity |].
  destruct (convert_fields_get strp _ _ _ _ E) as (l & El & L & ->).
  exists l. split; [now apply convert_cells |]. split; [exact L |]. intros k. apply fold_sset_find.
Qed.
Print Assumptions C66_fields.
(** And a row can be converted if and only if it has no more cells than there are titles and
    every cell from the third on can. *)
Theorem C66_rows (strp : pystr -> pystr -> option datetime) (draw : nat -> N) types n line :
  (exists e, convert_line strp draw types n line = Ok e) <->
  List.length (skipn 2 line) <= List.length (skipn 2 types)
  /\ Forall (fun '(t, s) => exists a, cell_is strp t s a) (combine (skipn 2 types) (skipn 2 line)).
Proof.
  unfold convert_line. rewrite <- (convert_fields_ok strp _ _ []).
  destruct (convert_fields strp (skipn 2 types) (skipn 2 line) []); cbn [bind]; split; intros (x & X); try discriminate; eauto.
Qed.
Print Assumptions C66_rows.
(** A cell that does not fit raises ValueError, the first cell without a title KeyError if all
    before it fit. *)
Theorem C66_errors (strp : pystr -> pystr -> option datetime) (draw : nat -> N) types n line x :
  convert_line strp draw types n line = Raise x <->
  (x = ValueError
   /\ Exists (fun '(t, s) => ~ exists a, cell_is strp t s a) (combine (skipn 2 types) (skipn 2 line))) \/
  (x = KeyError /\ List.length (skipn 2 types) < List.length (skipn 2 line)
   /\ Forall (fun '(t, s) => exists a, cell_is strp t s a) (combine (skipn 2 types) (skipn 2 line))).
Proof.
  unfold convert_line. rewrite <- (convert_fields_error strp _ _ []).
  destruct (convert_fields strp (skipn 2 types) (skipn 2 line) []); cbn [bind]; split; congruence.
Qed.
Print Assumptions C66_errors.
Example C66_errors_ex :
  let types := [py "Case"; py "Event"; py "Activity"; py "Cost"] in
  let row l := convert_line (fun _ _ => None) N.of_nat types 0 (map py l) in
  row ["1"; "2"; "a"; "x"; "y"]%string = Raise ValueError /\ row ["1"; "2"; "a"; "5"; "y"]%string = Raise KeyError.
Proof. split; reflexivity. Qed.
(** Titles that are no dates and have no line end are taken as they are. *)
Theorem C66_titles s : contains (py "yyyy") s = false -> ~ In 10%N s -> column_type s = s.
Proof. exact (plain_title s). Qed.
Print Assumptions C66_titles.
Example C66_titles_ex : column_type (py "dd-MM-yyyy:HH.mm" ++ [10%N]) = py "%d-%m-%Y:%H.%M" /\ column_type (py "Costs") = py "Costs".
Proof. vm_compute. split; reflexivity. Qed.

(** What the script is for: one trace per run of rows with the same case.  It fails
    even if the lost group is restored. *)
Theorem C66_one_trace_per_case_refuted :
  exists text header r0 rows types es l lost,
  let strp := fun _ _ => None in let draw := N.of_nat in
  file_lines text = header :: r0 :: rows /\
  types = map column_type (split (py ";") header) /\
  map_res (fun '(i, r) => convert_line strp draw types i (split (py ";") r))
          (combine (seq 0 (S (List.length rows))) (r0 :: rows)) = Ok es /\
  csv_log strp draw text = Ok l /\
  map tr_events (lg_traces l) ++ [lost]
  <> runs (case_of r0) [] (combine (map case_of (r0 :: rows)) es) /\
  es = log_events l ++ lost.
Proof.
  pose (nl := [10%N]).
  exists (py "Case;Event;Activity" ++ nl ++ py "1;1;a" ++ nl ++ py "2;2;b" ++ nl ++ py "2;3;c" ++ nl).
  do 3 eexists. eexists. exists (map (fun '(i, a) => mk_event i
     [(py "Activity", mk_attr CLiteral (py "Activity") None (PStr (py a ++ nl)) [] [])])
     [(0%N, "a"); (1%N, "b"); (2%N, "c")]%string).
  eexists. exists [mk_event 2 [(py "Activity",
     mk_attr CLiteral (py "Activity") None (PStr (py "c" ++ nl)) [] [])]].
  cbv zeta. split; [reflexivity |]. split; [reflexivity |]. split; [reflexivity |].
  split; [reflexivity |]. split; [| reflexivity]. cbv. discriminate.
Qed.
Print Assumptions C66_one_trace_per_case_refuted.

(** Four rows of the cases 1, 1, 2 and 2: only the first trace is complete. *)
Example C66_ex :
  let nl := [10%N] in
  let text := py "Case;Event;Activity;Cost" ++ nl ++ py "1;1;a;50" ++ nl ++ py "1;2;b; 7"
              ++ nl ++ py "2;3;a;+1" ++ nl ++ py "2;4;c;9" in
  let ev i a z := mk_event i
     [lit "Activity" a; (py "Cost", mk_attr CDiscrete (py "Cost") None (PInt z) [] [])] in
  csv_log (fun _ _ => None) N.of_nat text
  = Ok (mk_log [] [mk_trace [] [ev 0%N "a"%string 50%Z; ev 1%N "b"%string 7%Z];
                   mk_trace [] [ev 2%N "a"%string 1%Z]] [] [] [] [] []).
Proof. reflexivity. Qed.

(** ** C67 *)

(** Anonymising raises AttributeError exactly if a list or container among the global,
    trace and event attributes has a resource key.  Otherwise exactly the values of the
    resources among these attributes become UNKNOWN. *)
Theorem C67_anonymize (l : xlog) :
  ((exists a, In a (top_attrs l) /\ bad a) -> anonymize l = Raise AttributeError) /\
  (~ (exists a, In a (top_attrs l) /\ bad a) ->
   exists gt ge ts,
     anonymize l = Ok (mk_log (lg_attrs l) ts (lg_exts l) (lg_classifiers l) gt ge (lg_features l))
     /\ Forall2 hidden (lg_gtrace l) gt /\ Forall2 hidden (lg_gevent l) ge
     /\ Forall2 hidden_trace (lg_traces l) ts).
Proof. exact (anonymize_main l). Qed.
Print Assumptions C67_anonymize.

(** No resource of the looked-at attributes is left. *)
Theorem C67_none_left (l l' : xlog) : anonymize l = Ok l' ->
  forall a, In a (top_attrs l') -> hidden_key (a_key a) -> a_val a = PStr (py "UNKNOWN").
Proof. exact (anonymize_none_left l l'). Qed.
Print Assumptions C67_none_left.

(** The header of the script promises this for all resource attributes; those of the log
    and nested ones are left. *)
Theorem C67_all_resources_refuted : exists l l', anonymize l = Ok l' /\
  (exists a, In a (map snd (lg_attrs l')) /\ hidden_key (a_key a)
             /\ a_val a = PStr (py "Ann")) /\
  (exists b a, In b (top_attrs l') /\ In a (nested b) /\ hidden_key (a_key a)
               /\ a_val a = PStr (py "Bob")).
Proof.
  exists (mk_log [lit "org:resource" "Ann"] [mk_trace [] [mk_event 0
     [(py "x", mk_attr CLiteral (py "x") None (PStr (py "y")) [] [lit "Resource" "Bob"])]]]
     [] [] [] [] []).
  eexists. split; [reflexivity |]. split.
  - exists (snd (lit "org:resource" "Ann")). split; [now left |]. split; [right |]; reflexivity.
  - exists (mk_attr CLiteral (py "x") None (PStr (py "y")) [] [lit "Resource" "Bob"]).
    exists (snd (lit "Resource" "Bob")). split; [now left |]. split; [now left |].
    split; [left |]; reflexivity.
Qed.
Print Assumptions C67_all_resources_refuted.

Example C67_ex :
  anonymize (log_of [mk_trace [lit "Resource" "T"] [mk_event 1 [lit "a" "b"; lit "org:resource" "E"]]])
  = Ok (log_of [mk_trace [lit "Resource" "UNKNOWN"]
                  [mk_event 1 [lit "a" "b"; lit "org:resource" "UNKNOWN"]]]) /\
  anonymize (log_of [mk_trace [(py "Resource", mk_attr CList (py "Resource") None PNone [] [])] []])
  = Raise AttributeError.
Proof. split; reflexivity. Qed.

(** ** C68 *)

(** Two traces have the same vector exactly if they have the same events in some order;
    the entries of a vector add up to the length of the trace. *)
Theorem C68_vectors (FIO : FloatIO) (SO : SetOrder) c l vs :
  map_res (variant c) (lg_traces l) = Ok vs ->
  exists us, log_vectors c l = Ok us /\ List.length us = List.length vs /\
    (forall i j, i < List.length vs -> j < List.length vs ->
       (nth i us [] = nth j us [] <-> Permutation (nth i vs []) (nth j vs []))) /\
    (forall i, i < List.length vs ->
       fold_right Nat.add 0 (nth i us []) = List.length (nth i vs [])).
Proof. exact (vectors_main c l vs). Qed.
Print Assumptions C68_vectors.

(** Every trace goes into the log of its cluster, in order.  The new logs have the
    attributes and extensions of the old one, and no classifiers or globals. *)
Theorem C68_clusters (FIO : FloatIO) (SO : SetOrder)
  (centres : list (list nat) -> nat) (predict : list (list nat) -> list nat -> nat)
  c l us logs :
  log_vectors c l = Ok us -> cluster_log centres predict c l = Ok logs ->
  List.length logs = centres us /\
  forall k d, k < centres us ->
  nth k logs d
  = mk_log (lg_attrs l)
      (map snd (filter (fun p => Nat.eqb (predict us (fst p)) k) (combine us (lg_traces l))))
      (lg_exts l) [] [] [] [].
Proof. exact (clusters_main centres predict c l us logs). Qed.
Print Assumptions C68_clusters.

(** There are new logs iff every vector is predicted to be in one of the clusters. *)
Theorem C68_outcome (FIO : FloatIO) (SO : SetOrder)
  (centres : list (list nat) -> nat) (predict : list (list nat) -> list nat -> nat)
  c l us : log_vectors c l = Ok us -> match cluster_log centres predict c l with
  | Ok _ => Forall (fun v => predict us v < centres us) us
  | Raise e => e = KeyError /\ Exists (fun v => centres us <= predict us v) us
  end.
Proof. exact (clusters_outcome centres predict c l us). Qed.
Print Assumptions C68_outcome.

(** So together they have exactly the traces of the log. *)
Theorem C68_all_traces (FIO : FloatIO) (SO : SetOrder)
  (centres : list (list nat) -> nat) (predict : list (list nat) -> list nat -> nat)
  c l logs : cluster_log centres predict c l = Ok logs ->
  Permutation (flat_map lg_traces logs) (lg_traces l).
Proof. exact (clusters_perm centres predict c l logs). Qed.
Print Assumptions C68_all_traces.

Example C68_ex :
  log_vectors by_activity vlog = Ok [[1; 1]; [1; 0]; [1; 1]; [1; 1]] /\
  cluster_log (fun _ => 2) (fun _ v => nth 1 v 0) by_activity vlog
  = Ok [mk_log (lg_attrs vlog) [nth 1 (lg_traces vlog) (mk_trace [] [])] [] [] [] [] [];
        mk_log (lg_attrs vlog) (map (fun i => nth i (lg_traces vlog) (mk_trace [] [])) [0; 2; 3])
               [] [] [] [] []].
Proof. split; reflexivity. Qed.
