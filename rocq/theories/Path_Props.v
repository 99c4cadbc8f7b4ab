(** C36: the path index of a data server. *)
From Verif Require Import Str_Model Str_Proofs Path_Model Path_Spec Path_Proofs.
Local Notation length := List.length.
Local Open Scope list_scope.

(** Full statement of C36: for every history [ops], [path_get (path_run ops) =
    spec_get (spec_run ops)] and [path_last (path_run ops) = spec_last (spec_run ops)].
    It is false in the ways refuted below; proved here for the histories whose
    paths are not empty and do not contain "%2C" and whose removals never take
    the last entry nor a text standing inside an earlier entry, and (for the
    last path) when at least two paths are recorded. *)
Theorem C36_history_get_partial : forall ops, clean_history [] ops ->
  path_get (path_run ops) = spec_get (spec_run ops).
Proof. exact history_get. Qed.
Print Assumptions C36_history_get_partial.

(** Partial; the full statement is at [C36_history_get_partial]. *)
Theorem C36_history_last_partial : forall ops, clean_history [] ops -> 2 <= length (spec_run ops) ->
  path_last (path_run ops) = spec_last (spec_run ops).
Proof. exact history_last. Qed.
Print Assumptions C36_history_last_partial.

Definition pa : str := s2l "/mnt/a/objects/h.1".
Definition pb : str := s2l "/mnt/b/objects/h.1".
Definition pc : str := s2l "/mnt/c,d/objects/h.1".

Lemma not_inside : forall p s, (exists r, cut_str p s = Some r) \/ ~ inside p s.
Proof.
  intros p s. destruct (cut_str p s) as [r|] eqn:E; [left; eauto|right].
  intros (a & b & ->). revert E. induction a as [|c a IH].
  - cbn [app]. destruct (p ++ b) as [|x y] eqn:E; cbn.
    + apply app_eq_nil in E as [-> ->]. cbn. discriminate.
    + rewrite <- E, strip_app. discriminate.
  - cbn [app cut_str]. destruct (strip p (c :: a ++ p ++ b)); [discriminate|].
    destruct (cut_str p (a ++ p ++ b)) as [[? ?]|]; [discriminate|exact IH].
Qed.

Ltac apart_tac :=
  match goal with |- ~ inside ?p ?s =>
    let H := fresh in destruct (not_inside p s) as [[r H]|H]; [vm_compute in H; discriminate H|exact H] end.

Lemma plain_pa : plain pa. Proof. split; [discriminate|apart_tac]. Qed.
Lemma plain_pb : plain pb. Proof. split; [discriminate|apart_tac]. Qed.
Lemma plain_pc : plain pc. Proof. split; [discriminate|apart_tac]. Qed.

(** A history with puts, a removal in the middle, a comma in a path. *)
Example C36_history_witness :
  clean_history [] [PPut pa; PPut pb; PPut pc; PRemove pb; PPut pb; PRemove pa] /\
  spec_run [PPut pa; PPut pb; PPut pc; PRemove pb; PPut pb; PRemove pa] = [pc; pb].
Proof.
  split; [|reflexivity].
  cbn [clean_history app]. split; [exact plain_pa|]. split; [exact plain_pb|].
  split; [exact plain_pc|]. split; [exact plain_pb|]. split.
  { right. exists [pa], [pc]. split; [reflexivity|]. split; [discriminate|].
    intros x [<-|[]]. unfold apart. apart_tac. }
  split; [exact plain_pb|]. split; [exact plain_pa|]. split; [|exact I].
  right. exists [], [pc; pb]. split; [reflexivity|]. split; [discriminate|]. intros x [].
Qed.

(** With puts only (no removal), every recorded path is returned, in order. *)
Theorem C36_puts_only : forall ps, Forall plain ps ->
  path_get (path_run (map PPut ps)) = spec_get ps.
Proof. intros ps H. rewrite puts_repr by exact H. apply get_repr, H. Qed.
Print Assumptions C36_puts_only.

Example C36_puts_only_witness : Forall plain [pa; pb; pc] /\
  path_get (path_run (map PPut [pa; pb; pc])) = Some [pa; pb; pc].
Proof. split; [repeat constructor; try apply plain_pa; try apply plain_pb; try apply plain_pc|reflexivity]. Qed.

(** The comma encoding is undone for every path without "%2C" in it. *)
Theorem C36_encoding_round_trip : forall p, ~ inside (s2l "%2C") p -> decode_path (encode_path p) = p.
Proof. exact decode_encode. Qed.
Print Assumptions C36_encoding_round_trip.

Example C36_encoding_round_trip_witness : ~ inside (s2l "%2C") (s2l "%,2,,C%2") /\
  encode_path (s2l "%,2,,C%2") = s2l "%%2C2%2C%2CC%2".
Proof. split; [apart_tac|reflexivity]. Qed.

(** The encoded text never contains the separator, whatever the path. *)
Theorem C36_encoding_separator_free : forall p, ~ In ","%char (encode_path p).
Proof. exact encode_nosep. Qed.
Print Assumptions C36_encoding_separator_free.

(** After a put over any non-empty text, that path is the last one. *)
Theorem C36_last_is_latest_put : forall c r p, ~ inside (s2l "%2C") p ->
  path_last (path_put (Some (c :: r)) p) = Some p.
Proof. exact path_last_put. Qed.
Print Assumptions C36_last_is_latest_put.

Example C36_last_is_latest_put_witness : ~ inside (s2l "%2C") pb /\
  path_last (path_put (path_put None pa) pb) = Some pb.
Proof. split; [apart_tac|reflexivity]. Qed.

(** The last path is always one of the recorded ones, for any stored text. *)
Theorem C36_last_is_recorded : forall v p, path_last v = Some p ->
  exists l, path_get v = Some l /\ In p l.
Proof.
  intros v p H. apply path_last_in in H. destruct v as [s|]; [|destruct H].
  eexists. split; [reflexivity|exact H].
Qed.
Print Assumptions C36_last_is_recorded.

Example C36_last_is_recorded_witness : path_last (path_run [PPut pa; PPut pb]) = Some pb.
Proof. reflexivity. Qed.

(** Violation: with one recorded path [GetLast] never finds it (line 114 asks
    for a separator), so the index is useless until a path is recorded twice. *)
Theorem C36_last_of_one_never_found : forall p, path_last (path_run [PPut p]) = None.
Proof. exact last_single. Qed.
Print Assumptions C36_last_of_one_never_found.

Theorem C36_last_refuted : exists ops,
  path_last (path_run ops) <> spec_last (spec_run ops) /\ clean_history [] ops.
Proof.
  exists [PPut pa]. split; [vm_compute; discriminate|]. split; [exact plain_pa|exact I].
Qed.
Print Assumptions C36_last_refuted.

(** Violation: removing the only path leaves an index entry with an empty path. *)
Theorem C36_remove_only_leaves_empty : forall p, plain p ->
  path_get (path_run [PPut p; PRemove p]) = Some [[]] /\ spec_run [PPut p; PRemove p] = [].
Proof.
  intros p H. split; [exact (remove_only_get p H)|].
  cbn. destruct (str_eq_dec p p); congruence.
Qed.
Print Assumptions C36_remove_only_leaves_empty.

Example C36_remove_only_witness : plain pa. Proof. exact plain_pa. Qed.

Theorem C36_remove_refuted : exists ops, path_get (path_run ops) <> spec_get (spec_run ops).
Proof. exists [PPut pa; PRemove pa]. vm_compute. discriminate. Qed.
Print Assumptions C36_remove_refuted.

(** Violation: removing the latest of several paths leaves an empty path at the
    end, which [GetLast] then returns as found. *)
Theorem C36_remove_latest_leaves_empty : forall l p, l <> [] -> Forall plain l -> plain p ->
  (forall x, In x l -> apart p x) ->
  path_get (path_run (map PPut (l ++ [p]) ++ [PRemove p])) = Some (l ++ [[]]) /\
  path_last (path_run (map PPut (l ++ [p]) ++ [PRemove p])) = Some [] /\
  spec_run (map PPut (l ++ [p]) ++ [PRemove p]) = l.
Proof.
  intros l p Hl H Hp Ha. unfold path_run, spec_run. rewrite !fold_left_app.
  destruct (remove_last_get l p Hl H Hp Ha) as [H1 H2].
  split; [exact H1|]. split; [exact H2|]. rewrite spec_puts. cbn [fold_left spec_step app].
  rewrite drop_first_at by (apply apart_neq, Ha). apply app_nil_r.
Qed.
Print Assumptions C36_remove_latest_leaves_empty.

Example C36_remove_latest_witness : [pa] <> [] /\ Forall plain [pa] /\ plain pb /\
  (forall x, In x [pa] -> apart pb x).
Proof.
  split; [discriminate|]. split; [constructor; [exact plain_pa|constructor]|]. split; [exact plain_pb|].
  intros x [<-|[]]. unfold apart. apart_tac.
Qed.

(** Violation: removing a path cuts it out of the middle of another one. *)
Theorem C36_remove_substring_refuted : exists a b,
  path_get (path_run [PPut a; PPut b; PPut a; PRemove b]) = Some [s2l "/disk"; b; a] /\
  spec_run [PPut a; PPut b; PPut a; PRemove b] = [a; a] /\ plain a /\ plain b.
Proof.
  exists (s2l "/disk/mnt/a/h.1"), (s2l "/mnt/a/h.1").
  split; [vm_compute; reflexivity|]. split; [vm_compute; reflexivity|].
  split; (split; [discriminate|apart_tac]).
Qed.
Print Assumptions C36_remove_substring_refuted.

(** Violation: a path containing "%2C" comes back with a comma. *)
Theorem C36_percent_refuted : exists p, p <> [] /\ path_get (path_run [PPut p]) <> spec_get [p].
Proof. exists (s2l "/mnt/a%2Cb/h.1"). split; [discriminate|vm_compute; discriminate]. Qed.
Print Assumptions C36_percent_refuted.
