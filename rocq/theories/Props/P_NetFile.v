(** What a saved net tells: /repo/example/AlphaAlgorithm.py:193-203. *)
From Coq Require Import String NArith List Bool Permutation.
From Verif Require Import Base.PyBase Base.Codec Model.Alpha Model.Files Model.NetFile Spec.AlphaNet Spec.Mining Spec.NetFile
  Spec.OnDisk Spec.Replay Proofs.NetFileFacts.
Import ListNotations.

(** ** The text *)

(** Nets with the same text have the same activities, first and last activities and places, whatever
    logs they were mined from and in whatever orders the sets were walked. *)
Theorem C111_tells (SO SO' : SetOrder) u v a b :
  @alpha_of SO u = Ok a -> @alpha_of SO' v = Ok b -> unquoted a -> unquoted b ->
  net_str a = net_str b -> drawn_alike a b.
Proof. exact (text_tells SO SO' u v a b). Qed.
Print Assumptions C111_tells.

(** So they replay the same traces, in whatever order the places are looked at. *)
Theorem C111_replays (SO SO' : SetOrder) u v a b o o' :
  @alpha_of SO u = Ok a -> @alpha_of SO' v = Ok b ->
  Permutation o (al_places a) -> Permutation o' (al_places b) ->
  unquoted a -> unquoted b -> net_str a = net_str b ->
  forall t, replays (al_starting a) (al_ending a) o (al_all a) t
            <-> replays (al_starting b) (al_ending b) o' (al_all b) t.
Proof. exact (text_replay SO SO' u v a b o o'). Qed.
Print Assumptions C111_replays.

(** ** The file *)

(** Only the file of that name with the ending ".tpn" changes.  It holds the text, or nothing if the
    encoding cannot express the text; then saving raises. *)
Theorem C111_saved loc a name d :
  let path := name ++ py ".tpn" in
  only_at path d (fst (save_net loc a name d))
  /\ match snd (save_net loc a name d) with
     | Ok _ => exists b, sget path (fst (save_net loc a name d)) = Some b /\ cd_enc loc (net_str a) = Some b
     | Raise x => x = UnicodeError /\ cd_enc loc (net_str a) = None
                  /\ sget path (fst (save_net loc a name d)) = Some []
     end.
Proof. exact (saved_net loc a name d). Qed.
Print Assumptions C111_saved.

(** Two nets saved with the same bytes are drawn alike and replay the same traces. *)
Theorem C111_files (SO SO' : SetOrder) loc u v a b m n d e d' e' o o' : lawful loc ->
  @alpha_of SO u = Ok a -> @alpha_of SO' v = Ok b -> unquoted a -> unquoted b ->
  Permutation o (al_places a) -> Permutation o' (al_places b) ->
  save_net loc a m d = (d', Ok tt) -> save_net loc b n e = (e', Ok tt) ->
  sget (m ++ py ".tpn") d' = sget (n ++ py ".tpn") e' ->
  drawn_alike a b
  /\ forall t, replays (al_starting a) (al_ending a) o (al_all a) t
               <-> replays (al_starting b) (al_ending b) o' (al_all b) t.
Proof. exact (saved_alike SO SO' loc u v a b m n d e d' e' o o'). Qed.
Print Assumptions C111_files.

(** ** Names with quotation marks *)

#[local] Instance insertion_order : SetOrder :=
  {| iter := fun A l => l; iter_perm := fun A l => Permutation_refl l |}.

(** One activity whose name looks like the rest of a line and the beginning of another. *)
Definition two_lines : pystr :=
  py "a+complete"++ [34%N] ++ py " in " ++ [34%N] ++ py "place_0" ++ [34%N] ++ py " out " ++ [34%N] ++ py "place_1"
  ++ [34%N] ++ py " ;" ++ [10%N] ++ py "trans " ++ [34%N] ++ py "t_4" ++ [34%N] ++ py "~" ++ [34%N] ++ py "b".

(** Names are not escaped, so without the condition the text of two different nets may be the same. *)
Theorem C111_quotes_refuted : exists (SO : SetOrder) u v a b,
  alpha_of u = Ok a /\ alpha_of v = Ok b /\ net_str a = net_str b /\ ~ same_set (al_all a) (al_all b).
Proof.
  exists insertion_order, [[two_lines]], [[py "a"]; [py "b"]]. eexists _, _.
  split; [vm_compute; reflexivity|]. split; [vm_compute; reflexivity|].
  split; [vm_compute; reflexivity|].
  intros H. assert (K := proj2 (H (py "a"))). destruct K as [K|[]]; [now left|discriminate K].
Qed.
Print Assumptions C111_quotes_refuted.

(** ** A case *)

(** The same net from two logs. *)
Example C111_ex : exists a b,
  alpha_of [[py "a"; py "b"; py "d"]; [py "a"; py "c"; py "d"]] = Ok a
  /\ alpha_of [[py "a"; py "b"; py "d"]; [py "a"; py "c"; py "d"]; [py "a"; py "b"; py "d"]] = Ok b
  /\ unquoted a /\ unquoted b /\ net_str a = net_str b /\ List.length (al_places a) = 2
  /\ exists d, save_net ascii a (py "net") [] = (d, Ok tt) /\ sget (py "net.tpn") d = Some (net_str b).
Proof.
  eexists _, _. split; [vm_compute; reflexivity|]. split; [vm_compute; reflexivity|].
  split; [|split; [|split; [vm_compute; reflexivity|split; [reflexivity|]]]].
  - intros e E. vm_compute in E. destruct E as [<-|[<-|[<-|[<-|[]]]]]; intros [K|[]]; discriminate K.
  - intros e E. vm_compute in E. destruct E as [<-|[<-|[<-|[<-|[]]]]]; intros [K|[]]; discriminate K.
  - eexists. split; vm_compute; reflexivity.
Qed.
