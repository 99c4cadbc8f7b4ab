(** Property theorems about slot tables (C01-C06). *)
From Verif Require Import Str_Spec Str_Proofs HashSlot_Model HashSlot_Spec HashSlot_Proofs.
Local Open Scope Z_scope.

(** C01: in an accepted table, lookup of a slot finds exactly its owner; a slot
    held by nobody is reported as such. *)
Theorem C01_slot_lookup_exact : forall sort tbl table slot,
  is_sorter sort -> wrap_slots sort tbl = Some table ->
  (forall v, get_slot_identify slot table = Some v <->
             exists a b, table_range tbl v a b /\ a <= slot < b) /\
  (get_slot_identify slot table = None <->
             forall v a b, table_range tbl v a b -> ~ (a <= slot < b)) /\
  (is_slot_in_edges slot table = true <->
             exists v a b, table_range tbl v a b /\ a <= slot < b).
Proof. exact slot_lookup_correct. Qed.
Print Assumptions C01_slot_lookup_exact.

(** C01: two owners never hold the same slot of an accepted table. *)
Theorem C01_slot_single_owner : forall sort tbl table v w a b c d s,
  is_sorter sort -> wrap_slots sort tbl = Some table ->
  table_range tbl v a b -> table_range tbl w c d ->
  a <= s < b -> c <= s < d -> v = w.
Proof. exact slot_single_owner. Qed.
Print Assumptions C01_slot_single_owner.

Definition ex_table : list (str * list str) :=
  [(s2l "g2", [s2l "5461-10922"; s2l "20-30"]); (s2l "g1", [s2l "0-20"; s2l "30-5461"])].

Example C01_nonvacuous :
  is_sorter isort /\
  exists t, wrap_slots isort ex_table = Some t /\
    get_slot_identify 25 t = Some (s2l "g2") /\ get_slot_identify 20 t = Some (s2l "g2") /\
    get_slot_identify 5460 t = Some (s2l "g1") /\ get_slot_identify 12000 t = None.
Proof.
  split; [exact isort_is_sorter|]. eexists. split; [vm_compute; reflexivity|].
  repeat split; vm_compute; reflexivity.
Qed.

(** C02: a table is accepted exactly when it names at least one owner, every
    text is a well-formed non-empty range, and no slot is in two ranges. *)
Theorem C02_table_accepted_iff : forall sort tbl, is_sorter sort ->
  ((exists table, wrap_slots sort tbl = Some table) <->
   tbl <> [] /\ table_wellformed tbl /\ table_disjoint tbl).
Proof. exact wrap_slots_accepts_iff. Qed.
Print Assumptions C02_table_accepted_iff.

(** C02: the same validation on ranges already parsed. *)
Theorem C02_edges_valid_iff : forall sort l, is_sorter sort ->
  (snd (sort_and_validate sort l) = true <-> nonempty l /\ pairwise_disjoint l).
Proof. exact sort_validate_iff. Qed.
Print Assumptions C02_edges_valid_iff.

(** C02: which texts are ranges. *)
Theorem C02_range_text_iff : forall t a b, format_int t = Some (a, b) <-> range_text t a b.
Proof. exact format_int_iff. Qed.
Print Assumptions C02_range_text_iff.

Example C02_overlap_rejected :
  wrap_slots isort [(s2l "a", [s2l "0-10"; s2l "50-60"]); (s2l "b", [s2l "9-20"])] = None /\
  wrap_slots isort [(s2l "a", [s2l "0-100"]); (s2l "b", [s2l "10-20"]); (s2l "c", [s2l "30-40"])] = None /\
  wrap_slots isort [(s2l "a", [s2l "5-5"])] = None /\ wrap_slots isort [] = None /\
  wrap_slots isort [(s2l "a", [])] = Some [].
Proof. repeat split; vm_compute; reflexivity. Qed.

(** C03: printing ranges and parsing them again gives the same ranges. *)
Theorem C03_ranges_roundtrip : forall l v,
  (forall e, In e l -> 0 <= e_start e <= int64_max /\ 0 <= e_end e <= int64_max /\ e_value e = v) ->
  wrap_slots_original (edge_strings l) v = Some l.
Proof. exact edge_strings_roundtrip. Qed.
Print Assumptions C03_ranges_roundtrip.

Example C03_nonvacuous :
  let l := [mkEdge 0 16384 (s2l "n1"); mkEdge 20000 20001 (s2l "n1")] in
  (forall e, In e l -> 0 <= e_start e <= int64_max /\ 0 <= e_end e <= int64_max /\ e_value e = s2l "n1") /\
  edge_strings l = [s2l "0-16384"; s2l "20000-20001"].
Proof.
  cbv zeta. split; [|vm_compute; reflexivity].
  intros e [<-|[<-|[]]]; cbn; unfold int64_max; repeat split; lia.
Qed.

(** C04: removal takes away exactly the removed slots and keeps owners. *)
Theorem C04_remove_exact : forall dest src v s,
  holds (remove_edges src dest) v s <-> holds src v s /\ ~ covered dest s.
Proof. exact remove_edges_holds. Qed.
Print Assumptions C04_remove_exact.

(** C04: the remaining ranges stay well-formed. *)
Theorem C04_remove_wellformed : forall dest src,
  (forall d, In d dest -> e_start d <= e_end d) -> nonempty src -> ascending src ->
  nonempty (remove_edges src dest) /\ ascending (remove_edges src dest).
Proof. exact remove_edges_wf. Qed.
Print Assumptions C04_remove_wellformed.

Example C04_nonvacuous :
  let src := [mkEdge 0 100 (s2l "n"); mkEdge 100 200 (s2l "n")] in
  let dest := [mkEdge 90 110 (s2l "n"); mkEdge 10 20 (s2l "n")] in
  nonempty src /\ ascending src /\ (forall d, In d dest -> e_start d <= e_end d) /\
  edge_strings (remove_edges src dest) = [s2l "0-10"; s2l "20-90"; s2l "110-200"].
Proof.
  cbv zeta. split; [|split; [|split]].
  - intros e [<-|[<-|[]]]; cbn; lia.
  - repeat constructor; cbn; lia.
  - intros e [<-|[<-|[]]]; cbn; lia.
  - vm_compute. reflexivity.
Qed.

(** C05: combining gives exactly the union, as non-touching ascending ranges;
    when all ranges have one owner the result keeps it. *)
Theorem C05_combine_union : forall sort src dest,
  is_sorter sort -> nonempty src -> nonempty dest ->
  let r := combine_edges sort src dest in
  nonempty r /\ separated r /\
  (forall s, covered r s <-> covered src s \/ covered dest s) /\
  (forall v, (forall e, In e src -> e_value e = v) -> (forall e, In e dest -> e_value e = v) ->
             forall e, In e r -> e_value e = v).
Proof. exact combine_edges_correct. Qed.
Print Assumptions C05_combine_union.

(** C05, owners: combining ranges of different owners does not keep the owner
    of each slot (the owner of the first merged range wins). *)
Theorem C05_combine_owner_refuted : exists sort src dest v s,
  is_sorter sort /\ nonempty src /\ nonempty dest /\ pairwise_disjoint (src ++ dest) /\
  holds dest v s /\ ~ holds (combine_edges sort src dest) v s.
Proof.
  exists isort, [mkEdge 0 10 (s2l "a")], [mkEdge 10 20 (s2l "b")], (s2l "b"), 15.
  split; [exact isort_is_sorter|]. split; [intros e [<-|[]]; cbn; lia|].
  split; [intros e [<-|[]]; cbn; lia|]. split.
  - apply all_disj_iff. repeat constructor. intros s. unfold contains. cbn. lia.
  - split; [exists (mkEdge 10 20 (s2l "b")); cbn; unfold contains; cbn; repeat split; auto; lia|].
    intros [e [Hin [Hv _]]]. vm_compute in Hin. destruct Hin as [<-|[]]. vm_compute in Hv. discriminate.
Qed.
Print Assumptions C05_combine_owner_refuted.

Example C05_nonvacuous :
  let src := [mkEdge 0 100 (s2l "n"); mkEdge 300 400 (s2l "n")] in
  let dest := [mkEdge 100 200 (s2l "n"); mkEdge 350 360 (s2l "n")] in
  nonempty src /\ nonempty dest /\
  edge_strings (combine_edges isort src dest) = [s2l "0-200"; s2l "300-400"].
Proof.
  cbv zeta. split; [|split; [|vm_compute; reflexivity]]; intros e [<-|[<-|[]]]; cbn; lia.
Qed.

(** C06: the range query returns, inside the interval, exactly the owners of the
    covered slots, and says "fully" exactly when every slot is covered. *)
Theorem C06_range_query_exact : forall start end_ l res fully,
  start < end_ -> nonempty l -> ascending l ->
  find_range_current_data start end_ l = (res, fully) ->
  nonempty res /\ ascending res /\
  (forall v s, holds res v s <-> holds l v s /\ start <= s < end_) /\
  (fully = true <-> forall s, start <= s < end_ -> covered l s).
Proof. exact find_range_correct. Qed.
Print Assumptions C06_range_query_exact.

(** C06: "valid range" is only answered when its owner holds all of it. *)
Theorem C06_valid_range_sound : forall e l,
  e_start e < e_end e -> nonempty l -> ascending l ->
  is_valid_edge e l = true -> forall s, contains e s -> holds l (e_value e) s.
Proof. exact is_valid_edge_sound. Qed.
Print Assumptions C06_valid_range_sound.

(** C06, converse.  Full statement: whenever the owner holds every slot of the
    range the answer is yes.  False: the owner may hold it in two touching
    ranges (a table that is accepted). *)
Theorem C06_valid_range_complete_refuted : exists tbl table e,
  wrap_slots isort tbl = Some table /\ e_start e < e_end e /\
  (forall s, contains e s -> holds table (e_value e) s) /\ is_valid_edge e table = false.
Proof.
  exists [(s2l "a", [s2l "0-50"; s2l "50-100"])].
  eexists. exists (mkEdge 40 60 (s2l "a")).
  split; [vm_compute; reflexivity|]. split; [cbn; lia|]. split; [|vm_compute; reflexivity].
  intros s Hs. unfold contains in Hs. cbn in Hs.
  destruct (Z_lt_ge_dec s 50).
  - eexists. split; [left; reflexivity|]. split; [reflexivity|]. unfold contains; cbn; lia.
  - eexists. split; [right; left; reflexivity|]. split; [reflexivity|]. unfold contains; cbn; lia.
Qed.
Print Assumptions C06_valid_range_complete_refuted.

(** C06, converse, restricted: it holds for tables in which touching ranges
    have different owners.  Missing: tables with touching ranges of one owner. *)
Theorem C06_valid_range_complete_partial : forall l e,
  e_start e < e_end e -> nonempty l -> ascending l -> normalised l ->
  (forall s, contains e s -> holds l (e_value e) s) -> is_valid_edge e l = true.
Proof.
  exact (fun l e He Hn HA HN Hall =>
    match held_range_single l e He Hn HA HN Hall with
    | ex_intro _ x (conj Hx (conj Hv (conj Hs Hee))) => is_valid_edge_complete l e x He Hn HA Hx Hv Hs Hee
    end).
Qed.
Print Assumptions C06_valid_range_complete_partial.

Example C06_nonvacuous :
  let l := [mkEdge 0 50 (s2l "a"); mkEdge 50 100 (s2l "b"); mkEdge 120 130 (s2l "b")] in
  nonempty l /\ ascending l /\ normalised l /\
  is_valid_edge (mkEdge 60 100 (s2l "b")) l = true /\
  find_range_current_data 40 60 l = ([mkEdge 40 50 (s2l "a"); mkEdge 50 60 (s2l "b")], true) /\
  snd (find_range_current_data 40 125 l) = false.
Proof.
  cbv zeta. split; [|split; [|split]].
  - intros e [<-|[<-|[<-|[]]]]; cbn; lia.
  - repeat constructor; cbn; lia.
  - intros [|[|[|i]]] a b Ha Hb; cbn in Ha, Hb; try discriminate;
      injection Ha as <-; injection Hb as <-; cbn; intros H; try lia; discriminate.
  - repeat split; vm_compute; reflexivity.
Qed.
